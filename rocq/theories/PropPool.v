(* Property theorems C18, C19: recycling and copying of nodes in memory *)
From Coq Require Import List Arith Bool String Lia.
From Verif Require Import GoStr Names NodeM PoolM SpecPool PoolFacts.
Local Open Scope string_scope.

(* ---- C18 ---- *)
(* every schedule of any number of goroutines, every pool capacity: if nodes are closed and written only while
   in use, NewNode(x) returns a node that is not in use, with name x and all other fields empty *)
Theorem C18_new_nodes_are_clean_and_unshared {M} (cap : nat) (memory : addr -> cell M) (schedule : list action)
    pre t a x c post :
  let tr := m_trace (mrun cap (minit memory) schedule) in
  disciplined tr -> tr = (pre ++ ENew t a x c :: post)%list ->
  live pre a = false /\ c = Cell x None None "" [].
Proof. exact (recycled_clean cap memory schedule pre t a x c post). Qed.
Print Assumptions C18_new_nodes_are_clean_and_unshared.

(* the protocol is needed: closing a node twice makes NewNode hand it out twice *)
Theorem C18_double_close_shares_nodes :
  exists (cap : nat) (schedule : list (action (M := unit))) pre t a x c post,
    m_trace (mrun cap (minit (fun _ => clean empty_name)) schedule) = (pre ++ ENew t a x c :: post)%list /\
    live pre a = true.
Proof.
  exists 2, [ANew 0 (new_name "a"); AStep 0;
             AClose 0 0; AStep 0; AStep 0; AStep 0; AClose 0 0; AStep 0; AStep 0; AStep 0;
             ANew 0 (new_name "b"); AStep 0; AStep 0; ANew 0 (new_name "c"); AStep 0; AStep 0].
  eexists [_; _; _; _], _, _, _, _, []. split; vm_compute; reflexivity.
Qed.
Print Assumptions C18_double_close_shares_nodes.

(* two goroutines build, close and rebuild trees; the second gets the recycled nodes of the first *)
Example C18_hyps :
  let run := mrun 5000 (minit (fun _ => clean empty_name : cell unit))
    [ANew 0 (new_name "a"); AStep 0; ANew 0 (new_name "b"); AStep 0;
     AWrite 0 0 (Cell (new_name "a") (Some 7) None "v" [1]); AClose 0 0; AStep 0; AStep 0; AStep 0;
     ANew 1 (new_name "c"); AStep 0; AStep 0; AStep 0; AStep 1; AStep 1] in
  m_trace run = [ENew 0 0 (new_name "a") (clean (new_name "a")); ENew 0 1 (new_name "b") (clean (new_name "b"));
                 EWrite 0 0; EClose 0 0; EClose 0 1; ENew 1 1 (new_name "c") (clean (new_name "c"))] /\
  disciplined (m_trace run).
Proof.
  cbv zeta. assert (E : m_trace (mrun 5000 (minit (fun _ => clean empty_name : cell unit))
    [ANew 0 (new_name "a"); AStep 0; ANew 0 (new_name "b"); AStep 0;
     AWrite 0 0 (Cell (new_name "a") (Some 7) None "v" [1]); AClose 0 0; AStep 0; AStep 0; AStep 0;
     ANew 1 (new_name "c"); AStep 0; AStep 0; AStep 0; AStep 1; AStep 1]) =
     [ENew 0 0 (new_name "a") (clean (new_name "a")); ENew 0 1 (new_name "b") (clean (new_name "b"));
                 EWrite 0 0; EClose 0 0; EClose 0 1; ENew 1 1 (new_name "c") (clean (new_name "c"))]) by (vm_compute; reflexivity).
  rewrite E. split; [reflexivity|].
  split; intros pre t a post H;
    repeat (destruct pre as [|? pre]; [inversion H; subst; try reflexivity; try discriminate|]; cbn in H; inversion H; subst; clear H; rename H2 into H);
    destruct pre; discriminate.
Qed.

(* ---- C19 ---- *)
(* [rep s a n]: the tree n is stored at a; [reach]: the addresses it occupies; [in_use]: none of them is free.
   Whatever is later written to nodes and attribute arrays of the copy, or to memory allocated later, the original
   still holds the same tree. *)
Theorem C19_copy_is_equal_and_independent {M} (s : store M) a n fuel :
  NoDup (s_pool s) -> (forall x, In x (s_pool s) -> x < s_next s) ->
  rep s a n -> in_use s a -> depth n <= fuel ->
  exists s' a', mem_copy fuel s a = Some (s', a') /\ rep s' a' n /\ rep s' a n /\ in_use s' a' /\
    (forall x, reach s' a' x -> ~ reach s' a x) /\ (forall r, reach_arr s' a' r -> ~ reach_arr s' a r) /\
    (forall ws, Forall (fun w => match w with
                                 | WCell x _ => reach s' a' x \/ s_next s' <= x
                                 | WArr r _ => reach_arr s' a' r \/ s_anext s' <= r end) ws ->
       rep (fold_left do_write ws s') a n).
Proof. intros H1 H2. exact (copy_independent s a n fuel (conj H1 H2)). Qed.
Print Assumptions C19_copy_is_equal_and_independent.

(* a node with an attribute and a child; one recycled node is available *)
Example C19_hyps :
  let s : store unit := Store (fun a => if Nat.eqb a 0 then Cell (new_name "a") (Some 0) (Some tt) "v" [2] else Cell (new_name "b") None None "w" [])
             (fun _ => [Attr (new_name "k") "x"]) 3 1 [1] in
  let n : node unit := Node (new_name "a") [Attr (new_name "k") "x"] (Some tt) "v" [Node (new_name "b") [] None "w" []] in
  rep s 0 n /\ in_use s 0 /\ depth n <= 2 /\
  (exists s', mem_copy 2 s 0 = Some (s', 1) /\ s_cells s' 1 = Cell (new_name "a") (Some 1) (Some tt) "v" [3]).
Proof.
  cbv zeta. split; [|split; [|split]].
  - apply (Rep (Store (fun a => if Nat.eqb a 0 then Cell (new_name "a") (Some 0) (Some tt) "v" [2] else Cell (new_name "b") None None "w" [])
             (fun _ => [Attr (new_name "k") "x"]) 3 1 [1]) 0). cbn. constructor; [|constructor].
    apply (Rep (Store (fun a => if Nat.eqb a 0 then Cell (new_name "a") (Some 0) (Some tt) "v" [2] else Cell (new_name "b") None None "w" [])
             (fun _ => [Attr (new_name "k") "x"]) 3 1 [1]) 2). constructor.
  - split.
    + intros x Hx. inversion Hx; subst; [cbn; lia|]. cbn in H. destruct H as [<-|[]].
      inversion H0; subst; [cbn; lia|]. cbn in H. destruct H.
    + intros r (x & Hx & Hr). inversion Hx; subst; [cbn in Hr; inversion Hr; cbn; lia|]. cbn in H. destruct H as [<-|[]].
      inversion H0; subst; [cbn in Hr; discriminate|]. cbn in H. destruct H.
  - vm_compute. lia.
  - eexists. split; vm_compute; reflexivity.
Qed.
