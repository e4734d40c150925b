(** Specification vocabulary for (address, mask) pairs and dotted quads. *)
From Verif Require Export SpecIP ModelSum.
Local Open Scope Z_scope.

(** The pair matches the integer address [x]: [x] agrees with the address on
    every bit of the mask. *)
Definition dsm_match (d : dsm) (x : Z) : Prop :=
  forall i, 0 <= i -> Z.testbit (dmask d) i = true -> Z.testbit x i = Z.testbit (daddr d) i.
Definition dsm_matched (l : list dsm) (x : Z) : Prop := exists d, In d l /\ dsm_match d x.

(** The text is four decimal octets separated by dots, denoting [n]. *)
Definition denotes_quad (s : string) (n : Z) : Prop :=
  exists a b c d A B C D,
    s = (A ++ "." ++ B ++ "." ++ C ++ "." ++ D)%string /\
    numeral_value A = Some a /\ numeral_value B = Some b /\
    numeral_value C = Some c /\ numeral_value D = Some d /\
    0 <= a < 256 /\ 0 <= b < 256 /\ 0 <= c < 256 /\ 0 <= d < 256 /\
    n = ((a * 256 + b) * 256 + c) * 256 + d.
