(* Vocabulary of the property of video frame rates C134; independent of the models. *)
From Coq Require Import List ZArith QArith Ascii String.
From Verif Require Import GoStr Spec SpecCodec SpecNum.
Import ListNotations.
Local Open Scope string_scope.

(* the same letters, large or small *)
Definition any_case (s t : string) : Prop := to_lower s = to_lower t.

(* the texts of whole numbers, ratios and decimal numbers with the rate they stand for *)
Inductive rate_text : string -> Q -> Prop :=
| ntsc t : any_case t "ntsc" -> rate_text t (2997 # 100)
| pal t : any_case t "pal" -> rate_text t 25
| whole t z : numeral t z -> (z < 2 ^ 63)%Z -> rate_text t (inject_Z z)
| ratio a b n d : numeral a n -> numeral b d -> (n < 2 ^ 63)%Z -> (0 < d < 2 ^ 63)%Z ->
    rate_text (a ++ "/" ++ b) (inject_Z n / inject_Z d).

(* what may stand behind a decimal number: frames per second, interlaced, progressive *)
Definition rate_unit (u : string) : Prop :=
  In u ["fps"; " fps"; "i"; "p"; "ifps"; "pfps"; "i fps"; "p fps"].
