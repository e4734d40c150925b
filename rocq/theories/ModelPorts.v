(** Model of the port-list functions of capirca/lib/policy.py and of
    capirca/lib/port.py. *)
From Verif Require Export Base.
Local Open Scope Z_scope.

(** A port range (first, last), as produced by policy.py:177-182. *)
Definition prange : Type := Z * Z.

(** Python tuple order used by [sorted(ports)]. *)
Definition prange_leb (a b : prange) : bool :=
  if fst a =? fst b then snd a <=? snd b else fst a <? fst b.

(** policy.py:1607-1622, one iteration of the loop; [ret] is ret_ports reversed. *)
Definition collapse_port_step (ret : list prange) (p : prange) : list prange :=
  match ret with
  | [] => [p]
  | l :: ret' =>
      if snd p <=? snd l then l :: ret'
      else if (fst p <? snd l) && (snd l <? snd p) then (fst l, snd p) :: ret'
      else if snd l + 1 =? fst p then (fst l, snd p) :: ret'
      else p :: l :: ret'
  end.

(** policy.py:1596-1623 Term.CollapsePortList *)
Definition collapse_port_list (ports : list prange) : list prange :=
  rev (fold_left collapse_port_step (py_sorted prange_leb ports) []).

(** policy.py:1645-1670 Term.CheckPortIsContained; an empty list means "any". *)
Definition check_port_is_contained (superset subset : list prange) : bool :=
  match superset, subset with
  | [], _ => true
  | _, [] => false
  | _, _ => forallb (fun s => existsb (fun q => (fst q <=? fst s) && (snd s <=? snd q)) superset) subset
  end.

(** port.py:152-172 Port, on an integer argument (the parsing of a string into an
    integer, which raises BadPortValue, is not modelled here). *)
Definition port_check (pval : Z) : res Z :=
  if (pval <? 0) || (65535 <? pval) then Raise (Exn "BadPortRange") else Ok pval.
