(* What a user expects of the native tags of the models, stated without the accessors; used in PropNativeTag.v *)
From Coq Require Import List Arith Bool Ascii String.
From Verif Require Import GoStr ArrayM TypeM NativeTags SpecType SpecTPath SpecNative.
Import ListNotations.
Local Open Scope string_scope.

(* the struct tag has text v under a key (the first entry counts), or nothing *)
Definition says (key : string) (kv : list (string * string)) (v : string) : Prop :=
  exists a b, kv = (a ++ (key, v) :: b)%list /\ ~ In key (map fst a).
Definition silent (key : string) (kv : list (string * string)) : Prop := ~ In key (map fst kv).

(* the name a field declares: the text before the first comma, and the name of the Go field if there is none *)
Definition before_comma (v p : string) : Prop := has_char "," p = false /\ (v = p \/ exists r, v = p ++ "," ++ r).
Definition native_name (key : string) (row : string * list (string * string)) (n : string) : Prop :=
  (silent key (snd row) /\ n = fst row)
  \/ exists v p, says key (snd row) v /\ v <> "-" /\ before_comma v p /\ (p <> "" /\ n = p \/ p = "" /\ n = fst row).

(* fields tagged - have no native name *)
Definition left_out (key : string) (row : string * list (string * string)) : Prop := says key (snd row) "-".
(* how many of these fields have one *)
Inductive taking_part (key : string) : struct_tags -> nat -> Prop :=
| tp_nil : taking_part key [] 0
| tp_in row a j : ~ left_out key row -> taking_part key a j -> taking_part key (row :: a) (S j)
| tp_out row a j : left_out key row -> taking_part key a j -> taking_part key (row :: a) j.

(* a tag stands for the field j, described by f and t: reading the tag gives the text of its value, and "" if it is unset;
   writing a text gives the field the value the text stands for and changes nothing else *)
Definition stands_for {X} (f : finfo) (t : ty X) (j : nat) (get : list (gval X) -> result string)
    (set : list (gval X) -> string -> list (gval X) * result unit) : Prop :=
  forall vs v, nth_error vs j = Some v ->
    (unset f t v -> get vs = Ok "")
    /\ (forall t' v' s, ~ unset f t v -> under t v t' v' -> plain_bytes t t' -> shows_as t' v' s -> get vs = Ok s)
    /\ forall value t' v' w, under t v t' v' -> reads_as t' v' value w ->
       exists vs', set vs value = (vs', Ok tt) /\ changed_at vs vs' j (wrap t w).

(* The frames of ID3v2.2 that go on under a longer name (ID3v2.4.0 native frames, and for the frames that v2.4
   dropped ID3v2.3.0), grouped by kind. The last column of iTunes frames is what iTunes writes. *)
Definition v22_successors : list (string * string) :=
  (* titles and numbers *)
  [("TT1", "TIT1"); ("TT2", "TIT2"); ("TT3", "TIT3"); ("TAL", "TALB"); ("TOT", "TOAL"); ("TRK", "TRCK"); ("TPA", "TPOS"); ("TRC", "TSRC");
  (* persons *)
   ("TP1", "TPE1"); ("TP2", "TPE2"); ("TP3", "TPE3"); ("TP4", "TPE4"); ("TOA", "TOPE"); ("TXT", "TEXT"); ("TOL", "TOLY"); ("TCM", "TCOM");
   ("TEN", "TENC"); ("IPL", "TIPL");
  (* what the music is like *)
   ("TBP", "TBPM"); ("TLE", "TLEN"); ("TKE", "TKEY"); ("TLA", "TLAN"); ("TCO", "TCON"); ("TFT", "TFLT"); ("TMT", "TMED");
  (* rights *)
   ("TCR", "TCOP"); ("TPB", "TPUB");
  (* the rest of the text frames *)
   ("TOF", "TOFN"); ("TDY", "TDLY"); ("TSS", "TSSE"); ("TXX", "TXXX"); ("TSI", "TSIZ"); ("TYE", "TYER"); ("TOR", "TORY");
   ("TDA", "TDRC"); ("TIM", "TDRC"); ("TRD", "TDRC");
  (* links *)
   ("WAF", "WOAF"); ("WAR", "WOAR"); ("WAS", "WOAS"); ("WCM", "WCOM"); ("WCP", "WCOP"); ("WPB", "WPUB"); ("WXX", "WXXX"); ("LNK", "LINK");
  (* everything else *)
   ("UFI", "UFID"); ("MCI", "MCDI"); ("ETC", "ETCO"); ("MLL", "MLLT"); ("STC", "SYTC"); ("ULT", "USLT"); ("SLT", "SYLT"); ("COM", "COMM");
   ("RVA", "RVA2"); ("EQU", "EQU2"); ("REV", "RVRB"); ("PIC", "APIC"); ("GEO", "GEOB"); ("CNT", "PCNT"); ("POP", "POPM"); ("BUF", "RBUF");
   ("CRA", "AENC"); ("CRM", "ENCR");
  (* iTunes *)
   ("TCP", "TCMP"); ("TST", "TSOT"); ("TS2", "TSO2"); ("TSA", "TSOA"); ("TSP", "TSOP"); ("TSC", "TSOC")].
(* the fields of an ID3v1 tag by the place where they begin in its 128 bytes: TAG, 30 bytes of title, 30 of artist, 30
   of album, 4 of year, 28 of comment, 2 of a zero with the track, and the genre; the places are written in four digits *)
Definition v1_successors : list (string * string) :=
  [("0x0003", "TIT2"); ("0x0021", "TPE1"); ("0x003f", "TALB"); ("0x005d", "TYER"); ("0x0061", "COMM"); ("0x007d", "TRCK"); ("0x007f", "TCON")].
