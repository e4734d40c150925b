(** Theorems C11-C13: port lists (capirca/lib/policy.py, port.py). *)
From Coq Require Import Lia Sorted.
From Verif Require Import SpecPorts PortProofs.
Local Open Scope Z_scope.

(** C11 *)
Theorem C11_collapse_ports_same_set :
  forall ports p, in_ports (collapse_port_list ports) p <-> in_ports ports p.
Proof. exact collapse_ports_cover. Qed.
Print Assumptions C11_collapse_ports_same_set.

(** Ascending, well-formed ranges; consecutive ranges share at most one port. *)
Theorem C11_collapse_ports_ascending :
  forall ports, (forall r, In r ports -> fst r <= snd r) ->
    Forall (fun r => fst r <= snd r) (collapse_port_list ports) /\
    StronglySorted (fun a b => snd a <= fst b /\ snd a < snd b) (collapse_port_list ports).
Proof. exact collapse_ports_ascending. Qed.
Print Assumptions C11_collapse_ports_ascending.

Example C11_example :
  collapse_port_list [(1024, 65535); (80, 80); (443, 443); (81, 90); (85, 100); (53, 53)]
  = [(53, 53); (80, 100); (443, 443); (1024, 65535)].
Proof. reflexivity. Qed.

(** C12: ranges that meet in one port stay apart. *)
Theorem C12_collapsed_ranges_disjoint_refuted :
  exists ports, (forall r, In r ports -> fst r <= snd r) /\
    collapse_port_list ports = [(10, 20); (20, 30)].
Proof.
  exists [(10, 20); (20, 30)]. split; [|reflexivity].
  intros r [<-|[<-|[]]]; simpl; lia.
Qed.
Print Assumptions C12_collapsed_ranges_disjoint_refuted.

(** Proved when no input range ends at a port where an input range starts. *)
Theorem C12_collapsed_ranges_separated_partial :
  forall ports, (forall r, In r ports -> fst r <= snd r) ->
    (forall r s, In r ports -> In s ports -> snd r <> fst s) ->
    separated (collapse_port_list ports).
Proof. exact collapse_ports_separated_partial. Qed.
Print Assumptions C12_collapsed_ranges_separated_partial.

Example C12_example :
  let l := [(30, 40); (10, 20); (21, 25); (15, 22)] in
  (forall r s, In r l -> In s l -> snd r <> fst s) /\ collapse_port_list l = [(10, 25); (30, 40)].
Proof.
  split; [|reflexivity]. intros r s Hr Hs.
  destruct Hr as [<-|[<-|[<-|[<-|[]]]]]; destruct Hs as [<-|[<-|[<-|[<-|[]]]]]; simpl; lia.
Qed.

(** C13 *)
Theorem C13_port_containment_sound :
  forall superset subset, check_port_is_contained superset subset = true ->
    forall p, ports_match subset p -> ports_match superset p.
Proof. exact port_contained_sound. Qed.
Print Assumptions C13_port_containment_sound.

Theorem C13_port_containment_complete_when_separated :
  forall superset subset, superset <> [] -> separated superset -> subset <> [] ->
    (forall r, In r subset -> fst r <= snd r) ->
    (forall p, in_ports subset p -> in_ports superset p) ->
    check_port_is_contained superset subset = true.
Proof. exact port_contained_complete. Qed.
Print Assumptions C13_port_containment_complete_when_separated.

Example C13_example :
  check_port_is_contained [(20, 25); (80, 90)] [(22, 22); (80, 81)] = true /\
  check_port_is_contained [(20, 25); (80, 90)] [(22, 80)] = false /\
  separated [(20, 25); (80, 90)].
Proof.
  split; [reflexivity|]. split; [reflexivity|].
  constructor; [constructor; [constructor|constructor]|constructor; [simpl; lia|constructor]].
Qed.
