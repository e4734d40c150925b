(** Specification vocabulary for the parts shared by all generators. *)
From Coq Require Export Sorted Permutation.
From Verif Require Export ModelGen SpecPolicy.
Local Open Scope string_scope.
Local Open Scope list_scope.
Local Open Scope Z_scope.

(** The term is meant for the platform. *)
Definition meant_for (platform : string) (t : term) : Prop :=
  (t_platform t = [] \/ In platform (t_platform t)) /\ ~ In platform (t_platform_exclude t).

(** A generator with these keywords may be given an attribute with this value: if the
    attribute is set then it is a supported one, or an internal one, or one of those that
    are only warned about; values of attributes with a list of keywords are on that list. *)
Definition field_ok (k : tokens) (el : string) (v : value) : Prop :=
  (truthy v = true -> In el (supported k) \/ starts_with "flatten" el = true \/ In el warn_if_unsupported) /\
  (forall l subs, v = VList l -> assoc el (sub_tokens k) = Some subs -> In ".*" subs \/ forall x, In x l -> In x subs).

(** No occurrence of [w] in [p ++ w ++ r] starts before the one after [p]. *)
Definition first_at (p w r : string) : Prop :=
  forall p' r', (p ++ w ++ r)%string = (p' ++ w ++ r')%string -> (String.length p <= String.length p')%nat.
(** [s'] is [s] with the occurrences of [w], taken from the left, replaced by [b]. *)
Inductive substituted (w b : string) : string -> string -> Prop :=
| sub_none s : ~ contains s w -> substituted w b s s
| sub_first p r r' : first_at p w r -> substituted w b r r' ->
    substituted w b (p ++ w ++ r) (p ++ b ++ r').
(** The table's replacements done one after the other. *)
Inductive abbreviated : list (string * string) -> string -> string -> Prop :=
| abb_nil s : abbreviated [] s s
| abb_cons w b l s s1 s2 : substituted w b s s1 -> abbreviated l s1 s2 -> abbreviated ((w, b) :: l) s s2.

(** The number of an address family. *)
Definition family_number (af : afval) (n : Z) : Prop :=
  (af = AfNum n /\ (n = 4 \/ n = 6)) \/
  (n = 4 /\ (af = AfName "inet" \/ af = AfName "bridge")) \/ (n = 6 /\ af = AfName "inet6").
(** The ICMP types of a protocol and the family it belongs to. *)
Definition icmp_family (protocols : list string) (n : Z) (types : list (string * Z)) : Prop :=
  (protocols = ["icmp"%string] /\ n = 4 /\ types = icmp_type4) \/
  (protocols = ["icmpv6"%string] /\ n = 6 /\ types = icmp_type6).

(** The protocol number a protocol field means. *)
Definition protocol_number (p : pval) (n : Z) : Prop :=
  match p with
  | PNum m => m = n
  | PName s => In (s, n) proto_map \/ (s = dec n /\ In n (map snd proto_map))
  end.

(** The characters of a text other than blanks. *)
Definition ink (s : string) : list ascii := filter (fun c => negb (is_ws c)) (list_ascii_of_string s).
Definition nl : string := String newline "".
