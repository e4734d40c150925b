(** Specification vocabulary for strings. *)
From Verif Require Export Base.

(** [needle] occurs in [hay]. *)
Definition contains (hay needle : string) : Prop :=
  exists p q, hay = (p ++ needle ++ q)%string.

(** The integer a decimal numeral denotes ([None] for anything else). *)
Definition digit_value (c : ascii) : option Z :=
  let k := nat_of_ascii c in
  if ((48 <=? k) && (k <=? 57))%nat then Some (Z.of_nat (k - 48)) else None.
Fixpoint digits_value (s : string) (acc : Z) : option Z :=
  match s with
  | EmptyString => Some acc
  | String c s' =>
      match digit_value c with
      | Some d => digits_value s' (acc * 10 + d)%Z
      | None => None
      end
  end.
Definition numeral_value (s : string) : option Z :=
  match s with EmptyString => None | _ => digits_value s 0%Z end.
