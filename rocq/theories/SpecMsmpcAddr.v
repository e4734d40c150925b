(** Specification for the addresses of MS-MPC rules: how the device reads an address block. *)
From Verif Require Export SpecJuniper ModelMsmpcAddr.
Local Open Scope string_scope.
Local Open Scope list_scope.
Local Open Scope Z_scope.

(** The word of an address block has the address [x] of the family, with a prefix of length [n]. *)
Definition any_word (v : ver) : string := match v with V4 => "any-ipv4" | V6 => "any-ipv6" end.
Definition entry_has (v : ver) (w : string) (x n : Z) : Prop :=
  (w = any_word v /\ n = 0) \/ (prefix_says v w x /\ prefix_length w = Some n).
(** An address is in the block if an entry has it, and no exception of the same or a greater length has it. *)
Definition in_block (v : ver) (body : list stmt) (x : Z) : Prop :=
  exists w n, In (Leaf [w]) body /\ entry_has v w x n /\
    forall e m, In (Leaf [e; "except"]) body -> entry_has v e x m -> m < n.
(** Statements the platform takes: an address or an exception, with no IPv6 prefix of a length from 1 to 15. *)
Definition taken (v : ver) (s : stmt) : Prop :=
  exists w r, s = Leaf (w :: r) /\ (r = [] \/ r = ["except"]) /\
    (w = any_word v \/ exists n, prefix_length w = Some n /\ (v = V6 -> 16 <= n)).
(** What the block of a side means for the rule of the family: nothing left, no condition, or a block that can be
    read and has exactly the addresses of the side. *)
Definition side_reads (key : string) (v : ver) (inc exc : list net) (r : option (list string)) : Prop :=
  match r with
  | None => forall x, 0 <= x < 2 ^ width v -> ~ side_matches inc exc (v, x)
  | Some [] => forall x, side_matches inc exc (v, x)
  | Some ls => exists body, statements ls = Some [Block [key] body] /\ Forall (taken v) body /\
      forall x, 0 <= x < 2 ^ width v -> in_block v body x <-> side_matches inc exc (v, x)
  end.
