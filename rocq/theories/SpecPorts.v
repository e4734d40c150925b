(** Specification vocabulary for ports. *)
From Coq Require Export Sorted.
From Verif Require Export ModelPorts.
Local Open Scope Z_scope.

(** The range contains the port. *)
Definition in_range (r : Z * Z) (p : Z) : Prop := fst r <= p <= snd r.
(** Some range of the list contains the port. *)
Definition in_ports (l : list (Z * Z)) (p : Z) : Prop := exists r, In r l /\ in_range r p.
(** A port field of a term: no ranges means any port. *)
Definition ports_match (l : list (Z * Z)) (p : Z) : Prop := l = [] \/ in_ports l p.
(** Ascending with a gap of at least one port between consecutive ranges. *)
Definition separated (l : list (Z * Z)) : Prop :=
  StronglySorted (fun a b => snd a + 1 < fst b) l.
