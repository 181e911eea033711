(* C131: lists in iXML documents *)
From Coq Require Import List Arith ZArith Bool Ascii String Lia.
From Verif Require Import GoStr IxmlM SpecIxml.
Import ListNotations.
Local Open Scope nat_scope.
Local Open Scope string_scope.

Lemma tokens_el n c : tokens (El n c) = (TStart n :: all_tokens c ++ [TEnd n])%list.
Proof. reflexivity. Qed.
Lemma all_app a b : all_tokens (a ++ b) = (all_tokens a ++ all_tokens b)%list.
Proof. induction a as [|x a IH]; [reflexivity|]. cbn [all_tokens List.app]. rewrite IH. apply List.app_assoc. Qed.

(* an induction over content *)
Section Ind.
Variable P : list xml -> Prop.
Hypothesis H0 : P [].
Hypothesis H1 : forall s r, P r -> P (Text s :: r).
Hypothesis H2 : forall n c r, P c -> P r -> P (El n c :: r).
Fixpoint xml_ind (x : xml) : forall r, P r -> P (x :: r) :=
  match x return forall r, P r -> P (x :: r) with
  | Text s => fun r => H1 s r
  | El n c => fun r => H2 n c r ((fix all l : P l := match l with [] => H0 | y :: t => xml_ind y t (all t) end) c)
  end.
Lemma content_ind : forall l, P l.
Proof. induction l; [exact H0|]. now apply xml_ind. Qed.
End Ind.

Lemma element_content l : forall d n rest, element d (all_tokens l ++ TEnd n :: rest)%list =
  match d with 0 => Some (all_tokens l, rest) | S d' => match element d' rest with Some (c, r) => Some ((all_tokens l ++ TEnd n :: c)%list, r) | None => None end end.
Proof.
  induction l as [|s r IH|n' c r IHc IHr] using content_ind; intros d n rest.
  - cbn [all_tokens List.app element]. destruct d; reflexivity.
  - cbn [all_tokens tokens List.app element]. rewrite IH. destruct d as [|d]; [reflexivity|]. destruct (element d rest) as [[c q]|]; reflexivity.
  - cbn [all_tokens]. rewrite tokens_el. cbn [List.app]. rewrite <- !List.app_assoc. cbn [List.app element].
    rewrite IHc, IHr. destruct d as [|d]; [now rewrite <- ?List.app_assoc|].
    destruct (element d rest) as [[x y]|]; [|reflexivity]. rewrite <- ?List.app_assoc. reflexivity.
Qed.

Lemma element_more b : forall d l c0 rest, element d l = Some (c0, rest) -> element d (l ++ b)%list = Some (c0, (rest ++ b)%list).
Proof.
  intros d l. revert d. induction l as [|t l IH]; intros d c0 rest H; [discriminate|]. cbn [List.app element] in *.
  destruct t as [n|n|s]; [|destruct d; [now injection H as <- <-|]|].
  - destruct (element (S d) l) as [[c r]|] eqn:E; [|discriminate]. injection H as <- <-. now rewrite (IH _ _ _ E).
  - destruct (element (pred (S d)) l) as [[c r]|] eqn:E; [|discriminate]. injection H as <- <-. now rewrite (IH _ _ _ E).
  - destruct (element d l) as [[c r]|] eqn:E; [|discriminate]. injection H as <- <-. now rewrite (IH _ _ _ E).
Qed.

Section S.
Context {A : Type}.
Variable item count : string.
Variable dec : list tok -> result A.
Variable enc : A -> list tok.

Lemma read_content l : forall vs x fuel n rest,
  Forall2 (fun c v => dec (all_tokens c) = Ok v) (entries item l) vs -> List.length (all_tokens l) < fuel ->
  read_list item dec fuel (all_tokens l ++ TEnd n :: rest)%list x = Ok ((x ++ vs)%list, rest).
Proof.
  induction l as [|y l IH]; intros vs x fuel n rest F L.
  - cbn [entries] in F. inversion F; subst. destruct fuel as [|fuel]; [lia|]. cbn [all_tokens List.app read_list]. now rewrite List.app_nil_r.
  - destruct fuel as [|fuel]; [lia|]. cbn [all_tokens] in *. destruct y as [s|n' c].
    + cbn [tokens List.app read_list] in *. cbn [List.length] in L. apply IH; [exact F|lia].
    + rewrite tokens_el in *. cbn [List.app List.length] in *. rewrite <- !List.app_assoc. cbn [List.app read_list entries] in *.
      rewrite !app_length in L. cbn [List.length] in L. rewrite element_content. unfold skip. rewrite element_content. cbn [option_map snd].
      destruct (n' =? item)%string.
      * inversion F; subst. match goal with H : dec _ = _ |- _ => rewrite H end. cbn [bind]. rewrite (IH l' (x ++ [y])%list) by (auto; lia). now rewrite <- List.app_assoc.
      * apply IH; [exact F|lia].
Qed.

(* Reading the content of a list element takes the entries in order, after those already there, and stops right after the end of
   the element; other elements and text in between are ignored. *)
Theorem C131_read_list : forall l n rest old vs,
  Forall2 (fun c v => dec (all_tokens c) = Ok v) (entries item l) vs ->
  list_unxml item dec (all_tokens l ++ TEnd n :: rest)%list old = Ok ((old ++ vs)%list, rest).
Proof. intros l n rest old vs F. unfold list_unxml. apply read_content; [exact F|]. rewrite app_length. cbn. lia. Qed.

(* An entry that cannot be read makes the list fail. *)
Theorem C131_bad_entry : forall a b n c rest old vs e,
  n = item -> Forall2 (fun c v => dec (all_tokens c) = Ok v) (entries item a) vs -> dec (all_tokens c) = Err e ->
  list_unxml item dec (all_tokens (a ++ El n c :: b) ++ rest)%list old = Err e.
Proof.
  intros a b n c rest old vs e -> F E. unfold list_unxml.
  assert (G : forall fuel x r, List.length (all_tokens a) < fuel -> read_list item dec fuel (all_tokens a ++ tokens (El item c) ++ r)%list x = Err e).
  { revert vs F. induction a as [|y a IH]; intros vs F fuel x r L.
    - destruct fuel as [|fuel]; [lia|]. rewrite tokens_el. cbn [all_tokens List.app read_list]. rewrite <- List.app_assoc, String.eqb_refl. cbn [List.app]. rewrite element_content, E. reflexivity.
    - destruct fuel as [|fuel]; [lia|]. cbn [all_tokens] in *. destruct y as [s|n' c'].
      + cbn [tokens List.app read_list List.length] in *. eapply IH; [exact F|lia].
      + rewrite tokens_el in *. cbn [List.app List.length] in *. rewrite <- !List.app_assoc. cbn [List.app read_list entries] in *.
        rewrite !app_length in L. cbn [List.length] in L. rewrite element_content. unfold skip. rewrite element_content. cbn [option_map snd].
        destruct (n' =? item)%string; [|eapply IH; [exact F|lia]].
        inversion F; subst. match goal with H : dec _ = _ |- _ => rewrite H end. cbn [bind]. eapply IH; [eassumption|lia]. }
  rewrite all_app, <- List.app_assoc. cbn [all_tokens]. rewrite <- List.app_assoc. apply G. rewrite app_length. lia.
Qed.

(* Input that ends before the end of the list is an error, never a shorter list. *)
Theorem C131_truncated : forall l cut more old r, all_tokens l = (cut ++ more)%list -> list_unxml item dec cut old <> Ok r.
Proof.
  intros l cut more old r E. unfold list_unxml. generalize (S (List.length cut)). intros fuel.
  enough (G : forall fuel l cut more x, all_tokens l = (cut ++ more)%list -> read_list item dec fuel cut x <> Ok r) by (eapply G; eauto). clear.
  induction fuel as [|fuel IH]; intros l cut more x E; [discriminate|]. cbn [read_list]. destruct cut as [|t cut]; [discriminate|].
  destruct l as [|[s|n c] l]; [discriminate| |]; cbn [all_tokens] in E.
  - cbn [tokens List.app] in E. injection E as <- E. eapply IH; eauto.
  - rewrite tokens_el in E. cbn [List.app] in E. injection E as <- E. rewrite <- List.app_assoc in E. cbn [List.app] in E.
    assert (W : forall c0 rest, element 0 cut = Some (c0, rest) -> exists more', all_tokens l = (rest ++ more')%list).
    { intros c0 rest H.
      pose proof (element_more more _ _ _ _ H) as K. rewrite <- E, element_content in K. injection K as _ K. eauto. }
    unfold skip. destruct (element 0 cut) as [[c0 rest]|]; cbn [option_map snd].
    + destruct (W _ _ eq_refl) as (more' & M). destruct (n =? item)%string; [|eapply IH; eauto].
      destruct (dec c0); cbn [bind]; [eapply IH; eauto|discriminate..].
    + destruct (n =? item)%string; discriminate.
Qed.

(* What is written for a list is read as the same list, is well-formed, and the count in front of the entries is their number. *)
Theorem C131_round_trip : forall start x,
  item <> count -> x <> [] -> (forall v, In v x -> exists c, enc v = all_tokens c /\ dec (enc v) = Ok v) ->
  exists c, list_xml item count enc start x = tokens (El start c) /\ List.length (entries item c) = List.length x /\
    hd (Text "") c = El count [Text (itoa (Z.of_nat (List.length x)))] /\
    forall rest, list_unxml item dec (all_tokens c ++ TEnd start :: rest)%list [] = Ok (x, rest).
Proof.
  intros start x NC NE H.
  assert (B : exists c, flat_map (fun v => TStart item :: enc v ++ [TEnd item])%list x = all_tokens c /\ List.length (entries item c) = List.length x /\
    Forall2 (fun c v => dec (all_tokens c) = Ok v) (entries item c) x).
  { clear NE. induction x as [|v x IH]; [exists []; split; [reflexivity|]; split; [reflexivity|apply Forall2_nil]|]. destruct IH as (c & E & L & F); [intros w I; apply H; now right|].
    destruct (H v (or_introl eq_refl)) as (b & Eb & D). exists (El item b :: c). cbn [flat_map all_tokens entries]. rewrite tokens_el, String.eqb_refl, E, Eb.
    rewrite Eb in D. split; [reflexivity|]. cbn [List.length]. auto. }
  destruct B as (c & E & L & F). exists (El count [Text (itoa (Z.of_nat (List.length x)))] :: c).
  assert (EN : entries item (El count [Text (itoa (Z.of_nat (List.length x)))] :: c) = entries item c).
  { cbn [entries]. destruct (String.eqb_spec count item); [congruence|reflexivity]. }
  split; [|split; [now rewrite EN|split; [reflexivity|]]].
  - unfold list_xml. destruct x as [|v x]; [contradiction|]. rewrite E, tokens_el. cbn [all_tokens]. rewrite tokens_el. reflexivity.
  - intros rest. apply (C131_read_list _ start rest []). now rewrite EN.
Qed.
End S.
Print Assumptions C131_read_list.
Print Assumptions C131_bad_entry.
Print Assumptions C131_truncated.
Print Assumptions C131_round_trip.

(* entries that hold one text *)
Definition name_dec (l : list tok) : result string := match l with [TStart "NAME"; TChar s; TEnd "NAME"] => Ok s | _ => Err "bad track" end.
Definition name_enc (s : string) : list tok := [TStart "NAME"; TChar s; TEnd "NAME"].
Example C131_hyps :
  let l := [Text " "; El "TRACK_COUNT" [Text "9"]; El "TRACK" [El "NAME" [Text "a"]]; El "X" [El "TRACK" [Text "no"]]; El "TRACK" [El "NAME" [Text "b"]]] in
  Forall2 (fun c v => name_dec (all_tokens c) = Ok v) (entries "TRACK" l) ["a"; "b"] /\
  list_unxml "TRACK" name_dec (all_tokens l ++ [TEnd "TRACK_LIST"; TEnd "BWFXML"])%list ["z"] = Ok (["z"; "a"; "b"], [TEnd "BWFXML"]) /\
  (forall v, In v ["a"; "b"] -> exists c, name_enc v = all_tokens c /\ name_dec (name_enc v) = Ok v).
Proof.
  cbv zeta. split; [cbn; repeat constructor|]. split; [vm_compute; reflexivity|]. intros v _. exists [El "NAME" [Text v]]. split; reflexivity.
Qed.
(* An empty list writes nothing at all. *)
Example C131_empty : list_xml "TRACK" "TRACK_COUNT" name_enc "TRACK_LIST" [] = [].
Proof. reflexivity. Qed.
