(** Vocabulary for reverse lookups. *)
From Coq Require Import Relations.
From Verif Require Export SpecNaming.
Local Open Scope string_scope.

Definition alpha_name (s : string) : Prop := exists c r, s = String c r /\ is_alpha c = true.
Definition digit_start (s : string) : Prop := exists c r, s = String c r /\ is_digit c = true.

(** [T] lists [v], both named with a leading letter. *)
Definition named_ref (t : table) (v T : string) : Prop :=
  value_ref t v T /\ alpha_name v /\ alpha_name T.

(** [T] has a line whose text starts with a digit and denotes a network containing [q]. *)
Definition lists_address (parse_ip : string -> option net) (t : table) (T : string) (q : net) : Prop :=
  exists v c n, entry_value t T v c /\ digit_start v /\ parse_ip v = Some n /\ supernet_of n q = true.

(** The text "lo-hi/proto" or "n/proto" covers port [n] of exactly this protocol text. *)
Definition covers_port (s : string) (n : Z) (proto : string) : Prop :=
  exists p lo hi, pair_text s p proto /\ range_text p lo hi /\ (lo <= n <= hi)%Z.
