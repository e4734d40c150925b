(** What a policy file asks of a Juniper configuration: which filters, and with which terms.  Independent of
    the code that writes it; the text is read as in SpecJuniper. *)
From Verif Require Export SpecJuniper ModelJunPolicy.
Local Open Scope string_scope.
Local Open Scope list_scope.
Local Open Scope Z_scope.

(** Options of a header that may stand anywhere behind the name. *)
Definition jun_flags : list string := ["not-interface-specific"; "enable_dsmo"; "filter_enhanced_mode"].
(** The type of filter is the first word behind the name that is no such option, inet if there is none. *)
Definition jun_type (rest : list string) : string := hd "inet" (filter (fun w => negb (str_in w jun_flags)) rest).
(** The families and names of the filters: two for the type mixed. *)
Definition jun_names (name kind : string) : list (string * string) :=
  if String.eqb kind "mixed" then [("inet", (name ++ "4")%string); ("inet6", (name ++ "6")%string)] else [(kind, name)].
(** The filters a policy asks for: family, name and terms. *)
Definition jun_wanted (fs : list (asa_header * list term)) : list (string * string * list term) :=
  flat_map (fun f => match fst (fst f) with
                     | Some (name :: rest) => map (fun x => (fst x, snd x, snd f)) (jun_names name (jun_type rest))
                     | _ => []
                     end) fs.

(** ** Policies that can be rendered exactly *)

Record jun_header_ok (today : Z) (h : asa_header) (terms : list term) (name : string) (rest : list string) : Prop := {
  ju_name : plain_word name;
  ju_once : NoDup rest /\ ~ In name jun_flags;
  ju_dsmo : ~ In "enable_dsmo" rest;
  ju_type : In (jun_type rest) ["inet"; "inet6"; "bridge"; "mixed"];
  ju_comment : quiet_comments (snd h);
  ju_terms : forall fam, In fam (map fst (jun_names name (jun_type rest))) -> Forall (juniper_listed_ok (mkJuniper fam false false) today) terms;
  (* the filters of a mixed header share their terms: what the first takes away is missing from the second *)
  ju_shared : jun_type rest = "mixed" -> forall t, In t terms ->
    ~ In "hopopt" (t_protocol t) /\ ~ In "icmp6" (t_protocol t) /\ (In "icmpv6" (t_protocol t) -> t_restrict_address_family t = Some "inet6") /\
    ~ In "inactive" (t_option (unmarked t)) }.
Definition jun_policy_ok (today : Z) (fs : list (asa_header * list term)) : Prop :=
  forall f all, In f fs -> fst (fst f) = Some all -> exists name rest, all = name :: rest /\ jun_header_ok today (fst f) (snd f) name rest.
(** The configuration has one filter for each name of a family. *)
Definition jun_names_differ (fs : list (asa_header * list term)) : Prop := NoDup (map fst (jun_wanted fs)).
