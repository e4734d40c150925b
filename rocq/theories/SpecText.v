(** Reading of addresses written as text: the usual notations, independent of the code
    that prints them. *)
From Verif Require Export ModelText SpecIP SpecBase.
Local Open Scope string_scope.
Local Open Scope list_scope.
Local Open Scope Z_scope.

(** Dotted quad: four decimal numbers below 256. *)
Definition quad_value (s : string) : option Z :=
  match map numeral_value (split_char "." s) with
  | [Some a; Some b; Some c; Some d] =>
      if (a <? 256) && (b <? 256) && (c <? 256) && (d <? 256)
      then Some (((a * 256 + b) * 256 + c) * 256 + d) else None
  | _ => None
  end.

(** Hexadecimal group of one to four digits. *)
Definition hex_digit_value (c : ascii) : option Z :=
  let k := nat_of_ascii c in
  if ((48 <=? k) && (k <=? 57))%nat then Some (Z.of_nat (k - 48))
  else if ((97 <=? k) && (k <=? 102))%nat then Some (Z.of_nat (k - 87)) else None.
Fixpoint hex_digits_value (s : string) (acc : Z) : option Z :=
  match s with
  | EmptyString => Some acc
  | String c s' => match hex_digit_value c with Some d => hex_digits_value s' (acc * 16 + d) | None => None end
  end.
Definition group_value (s : string) : option Z :=
  match s with
  | EmptyString => None
  | _ => match hex_digits_value s 0 with Some v => if v <? 65536 then Some v else None | None => None end
  end.
(** Groups separated by single colons; the empty text has none. *)
Fixpoint all_some {A} (l : list (option A)) : option (list A) :=
  match l with
  | [] => Some []
  | Some a :: l' => match all_some l' with Some r => Some (a :: r) | None => None end
  | None :: _ => None
  end.
Definition groups (s : string) : option (list Z) :=
  match s with EmptyString => Some [] | _ => all_some (map group_value (split_char ":" s)) end.
(** The text cut at its first double colon. *)
Fixpoint cut_gap (s : string) : option (string * string) :=
  match s with
  | EmptyString => None
  | String c s' =>
      if String.prefix "::" s then Some (""%string, match s' with String _ r => r | _ => ""%string end)
      else match cut_gap s' with Some (a, b) => Some (String c a, b) | None => None end
  end.
Definition of_groups (l : list Z) : Z := fold_left (fun acc g => acc * 65536 + g) l 0.
(** Eight groups, or fewer with one gap that stands for the missing zeros. *)
Definition v6_value (s : string) : option Z :=
  match cut_gap s with
  | None => match groups s with
            | Some l => if (List.length l =? 8)%nat then Some (of_groups l) else None
            | None => None
            end
  | Some (a, b) =>
      match groups a, groups b with
      | Some l, Some r =>
          if (List.length l + List.length r <=? 7)%nat
          then Some (of_groups (l ++ repeat 0 (8 - List.length l - List.length r) ++ r)) else None
      | _, _ => None
      end
  end.
Definition ip_value (v : ver) (s : string) : option Z :=
  match v with V4 => quad_value s | V6 => v6_value s end.

(** address/length *)
Definition prefix_says (v : ver) (s : string) (x : Z) : Prop :=
  exists a len, s = (before_char "/" s ++ "/" ++ after_char "/" s)%string /\
    ip_value v (before_char "/" s) = Some a /\
    numeral_value (after_char "/" s) = Some len /\ len <= width v /\
    x / 2 ^ (width v - len) = a / 2 ^ (width v - len).
(** address and wildcard mask: bits set in the mask are free *)
Definition wildcard_says (q w : string) (x : Z) : Prop :=
  exists a m, quad_value q = Some a /\ quad_value w = Some m /\
    forall i, 0 <= i < 32 -> Z.testbit m i = false -> Z.testbit x i = Z.testbit a i.
