(** Specification vocabulary for looking up definitions: what the reports mean.  Definitions mean
    what SpecNaming.v says, addresses are looked up as SpecParents.v says. *)
From Coq Require Import Relations.
From Verif Require Export ModelCgrep SpecNaming SpecParents.
From Verif Require Export SpecText.
Local Open Scope string_scope.
Local Open Scope list_scope.

(** A network within another. *)
Definition within (n m : net) : Prop := forall x, covers n x -> covers m x.
(** The addresses of a definition. *)
Definition def_has (parse_ip : string -> option net) (t : table) (T : string) (x : ipaddr) : Prop :=
  exists n, net_in parse_ip t T n /\ covers n x.
(** A definition of an address: one that lists it, or that names such a definition, at any depth. *)
Definition defines (parse_ip : string -> option net) (t : table) (q : net) (T : string) : Prop :=
  exists B, lists_address parse_ip t B q /\ alpha_name B /\ (T = B \/ clos_trans _ (named_ref t) B T).
(** How the report names a definition: by itself if no other contains it, or behind each
    definition that contains it. *)
Definition named (t : table) (T name : string) : Prop :=
  (name = T /\ forall U, ~ contains_value t T U) \/
  exists U, contains_value t T U /\ name = (U ++ " -> " ++ T)%string.
(** The names reported for an address. *)
Definition reported (parse_ip : string -> option net) (t : table) (q : net) (name : string) : Prop :=
  exists T, defines parse_ip t q T /\ named t T name.
(** The networks shown with it: those of the definition that contain the address. *)
Definition shows (parse_ip : string -> option net) (t : table) (q : net) (T : string) (nets : list string) : Prop :=
  forall s, In s nets <-> exists n, net_in parse_ip t T n /\ within q n /\ s = prefixlen_text n.
(** The longest prefix among the texts of networks. *)
Definition length_of (s : string) : option Z := numeral_value (after_char "/" s).
Definition longest (nets : list string) (k : Z) : Prop :=
  (0 <= k)%Z /\ (forall s l, In s nets -> length_of s = Some l -> (l <= k)%Z) /\ (k = 0%Z \/ exists s, In s nets /\ length_of s = Some k).
(** References are on lines of their own, as in C42. *)
Definition bare_refs (t : table) : Prop :=
  forall T v c, entry_value t T v c -> has_definition t v -> exists items, In (T, items) t /\ In v items.
(** Addresses are written as networks. *)
Definition reads_networks (parse_ip : string -> option net) : Prop := forall s n, parse_ip s = Some n -> valid n.
