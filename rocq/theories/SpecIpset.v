(** Specification vocabulary for address sets: what ipset does with the commands it is given, and
    what the address conditions of a rule say when those sets exist.  Nothing here is taken from
    the code that writes them. *)
From Verif Require Export ModelIpset SpecIptables SpecGce SpecJuniper.
Local Open Scope string_scope.
Local Open Scope list_scope.
Local Open Scope Z_scope.

(** ** The sets *)

(** A set of networks: its name, its family, how many members it may have, and the members. *)
Record kset := mkKset { ks_name : string; ks_family : string; ks_max : Z; ks_members : list string }.
(** What can be a member of a set of networks: a prefix of the family that is not everything. *)
Definition can_hold (family a : string) : bool :=
  let fits v := match ip_value v (before_char "/" a), prefix_length a with
                | Some _, Some l => (1 <=? l) && (l <=? width v) | _, _ => false end in
  if String.eqb family "inet" then fits V4 else if String.eqb family "inet6" then fits V6 else false.
Fixpoint ks_add (again : bool) (n a : string) (sets : list kset) : option (list kset) :=
  match sets with
  | [] => None
  | s :: rest =>
      if String.eqb (ks_name s) n then
        if existsb (String.eqb a) (ks_members s) then (if again then Some sets else None)
        else if (Z.of_nat (List.length (ks_members s)) <? ks_max s) && can_hold (ks_family s) a
        then Some (mkKset n (ks_family s) (ks_max s) (ks_members s ++ [a]) :: rest)
        else None
      else option_map (cons s) (ks_add again n a rest)
  end.
(** A name is at most 31 characters long and is not an option. *)
Definition ks_name_ok (n : string) : bool :=
  (Nat.leb (String.length n) 31) && negb (match String.get 0 n with Some c => Ascii.eqb c "-" | None => true end).
Definition ks_create (again : bool) (args : list string) (sets : list kset) : option (list kset) :=
  match args with
  | [n; ty; k1; family; k2; _; k3; m] =>
      if String.eqb ty "hash:net" && String.eqb k1 "family" && String.eqb k2 "hashsize" && String.eqb k3 "maxelem"
         && ks_name_ok n && (String.eqb family "inet" || String.eqb family "inet6")
      then match numeral_value m with
           | Some max =>
               if existsb (fun s => String.eqb (ks_name s) n) sets then (if again then Some sets else None)
               else Some (sets ++ [mkKset n family max []])
           | None => None
           end
      else None
  | _ => None
  end.
(** One command.  Comments are skipped; a command that fails ends the run. *)
Definition ks_step (sets : list kset) (line : string) : option (list kset) :=
  match split_ws line with
  | [] => Some sets
  | w :: rest =>
      let again := match rest with o :: _ => String.eqb o "-exist" | [] => false end in
      let args := if again then tl rest else rest in
      if String.eqb w "#" then Some sets
      else if String.eqb w "create" then ks_create again args sets
      else if String.eqb w "add" then match args with [n; a] => ks_add again n a sets | _ => None end
      else None
  end.
Fixpoint ks_run (sets : list kset) (lines : list string) : option (list kset) :=
  match lines with
  | [] => Some sets
  | l :: rest => match ks_step sets l with Some s => ks_run s rest | None => None end
  end.
Definition ks_has (sets : list kset) (n : string) (x : ipaddr) : Prop :=
  exists s a, In s sets /\ ks_name s = n /\ In a (ks_members s) /\ range_has x a.

(** ** Conditions *)

(** The condition of a rule on its source or destination, [flag] and [direction] being the words
    for that side. *)
Definition condition_says (sets : list kset) (flag direction text : string) (x : ipaddr) : Prop :=
  split_ws text = [] \/
  (exists a, split_ws text = [flag; a] /\ range_has x a) \/
  (exists n, split_ws text = ["-m"; "set"; "--match-set"; n; direction] /\ ks_has sets n x).

(** ** Terms *)

(** Addresses as a policy has them once overlapping ones have been merged. *)
Definition set_lists_ok (inc exc : list net) : Prop := valid_list inc /\ valid_list exc /\ pairwise_disjoint inc.
Definition set_term_ok (t : term) : Prop :=
  forall_char (fun c => negb (is_ws c)) (t_name t) = true /\ t_name t <> "" /\ String.get 0 (t_name t) <> Some "-"%char /\
  set_lists_ok (t_source_address t) (t_source_address_exclude t) /\
  set_lists_ok (t_destination_address t) (t_destination_address_exclude t).
(** The part of a name that is left beside -src or -dst, or -src-v6 or -dst-v6, in 31 characters. *)
Definition name_start (v : ver) (name : string) : string := substring 0 (match v with V4 => 27 | V6 => 24 end) name.
