(** Theorems C94: NSX-V sections (nsxv.py). *)
From Coq Require Import Lia ZifyBool ZifyNat.
From Verif Require Import SpecCisco Samples BaseFacts PyStrFacts TextProofs CiscoProofs QuietTerm GceProofs NsxProofs NsxPolicy NsxvRead NsxvProofs NsxvPolicy.
From Verif Require Import PropsPolicy PropsNsx SpecGce SpecNsx SpecNsxv.
Local Open Scope string_scope.
Local Open Scope list_scope.
Local Open Scope Z_scope.

(** ** C94: the section decides as the policy file says *)

(** The text can be read as XML.  It is a section with the number and the name of the header, whatever
    generators were made before, whose rules are applied to the security group of the header.  The first
    rule that matches a packet of the families of the header has the action of the first term in force that
    matches it; terms for established connections are left to the firewall, which allows replies.  Missing
    for the full claim: the policies of the refutations below. *)
Theorem C94_section_decides_as_policy_partial : forall today shared fs name kind more terms text,
  nv_asks fs name kind more terms -> header_word name -> (forall w, In w more -> header_word w) ->
  nv_policy today shared fs = Ok text -> nv_terms_ok today kind terms ->
  exists rules, read_document text = Some (Elem (section_head name more) rules) /\
    (forall r, In r rules -> applied_says r (group_word more)) /\
    forall p o, nv_traffic kind p -> (nv_decides (Elem (section_head name more) rules) p o <-> first_says (nv_term_says today p) terms o).
Proof. exact nv_decides_spec. Qed.
Print Assumptions C94_section_decides_as_policy_partial.

(** *** A policy that meets the hypotheses *)
Definition nvbad : term := Eval vm_compute in set_source_address [v4 10 6 0 0 16; v6 db8 32] (set_action ["deny"] (set_comment ["No,   never."] (blank "bad"))).
Definition nvweb : term := Eval vm_compute in set_protocol ["tcp"; "udp"] (set_destination_port [(80, 80); (8000, 8080)] (set_source_address [v4 10 0 0 0 14]
  (set_source_address_exclude [v4 10 2 0 0 15] (set_destination_address [v4 10 9 0 1 32; v6 db8 32] (accept "web"))))).
Definition nvping : term := Eval vm_compute in set_protocol ["icmp"] (set_icmp_type ["echo-request"; "unreachable"] (accept "ping")).
Definition nvv6 : term := Eval vm_compute in set_protocol ["icmpv6"; "gre"] (set_action ["reject"] (blank "v6")).
Definition nvest : term := Eval vm_compute in set_option ["tcp-established"] (set_protocol ["tcp"] (accept "est")).
Definition nvold : term := Eval vm_compute in set_expiration (Some 100) (set_protocol ["gre"] (accept "old")).
Definition nvother : term := Eval vm_compute in set_platform ["juniper"] (set_protocol ["gre"] (accept "other")).
Definition nv_sample : list (option (list string) * list term) :=
  [(None, [nvother]); (Some ["web"; "mixed"; "1009"; "securitygroup"; "sg"], [nvbad; nvold; nvweb; nvest; nvping; nvother; nvv6])].
Definition xleaf (tag s : string) : xml := Elem tag [Text s].
Definition nv_quoted (s : string) : string := String dquote (s ++ String dquote "")%string.
Definition nvrule (name action : string) (middle : list xml) (notes : list xml) : xml :=
  Elem ("rule logged=" ++ nv_quoted "false") ([xleaf "name" name; xleaf "action" action] ++ middle
    ++ [Elem "appliedToList" [Elem "appliedTo" [xleaf "type" "SecurityGroup"; xleaf "value" "sg"]]] ++ notes).
Definition nvside (tag : string) (l : list (string * string)) : xml :=
  Elem (tag ++ "s excluded=" ++ nv_quoted "false") (map (fun e => Elem tag [xleaf "type" (fst e); xleaf "value" (snd e)]) l).
Definition nvservices (l : list (list (string * string))) : xml := Elem "services" (map (fun s => Elem "service" (map (fun e => xleaf (fst e) (snd e)) s)) l).
Definition nv_sample_tree : xml :=
  Elem ("section id=" ++ nv_quoted "1009" ++ " name=" ++ nv_quoted "web")
    [nvrule "bad" "deny" [nvside "source" [("Ipv4Address", "10.6.0.0/16"); ("Ipv6Address", "2001:db8::/32")]] [xleaf "notes" "No, never."];
     nvrule "web" "allow" [nvside "source" [("Ipv4Address", "10.0.0.0/15")]; nvside "destination" [("Ipv4Address", "10.9.0.1")];
       nvservices [[("protocol", "6"); ("destinationPort", "80, 8000-8080")]; [("protocol", "17"); ("destinationPort", "80, 8000-8080")]]] [];
     nvrule "ping" "allow" [nvservices [[("protocol", "1"); ("subProtocol", "3")]; [("protocol", "1"); ("subProtocol", "8")]]] [];
     nvrule "v6" "reject" [nvservices [[("protocol", "58")]; [("protocol", "47")]]] []].
Lemma nv_none_side vs : nv_side_ok vs [] [].
Proof. split; [constructor|]. split; [constructor|]. left. auto. Qed.
Ltac nv_cases I := destruct I as [<-|[<-|[<-|[<-|[]]]]].
Lemma nv_sample_ok t : In t [nvbad; nvweb; nvping; nvv6] -> nv_term_ok [V4; V6] t.
Proof.
  intros I. constructor.
  - nv_cases I; try apply nv_none_side.
    + split; [valid_tac|]. split; [constructor|]. right. split; [discriminate|].
      exists (V4, 168165377). split; [left; reflexivity|]. split; [right|intros (n & [] & _)]. exists (v4 10 6 0 0 16). split; [left; reflexivity|]. split; [reflexivity|cbn; lia].
    + split; [valid_tac|]. split; [valid_tac|]. right. split; [discriminate|].
      exists (V4, 167772161). split; [left; reflexivity|]. split; [right; exists (v4 10 0 0 0 14); split; [left; reflexivity|split; [reflexivity|cbn; lia]]|].
      intros (n & [<-|[]] & _ & C). cbn in C. lia.
  - nv_cases I; try apply nv_none_side.
    split; [valid_tac|]. split; [constructor|]. right. split; [discriminate|].
    exists (V4, 168361985). split; [left; reflexivity|]. split; [right|intros (n & [] & _)]. exists (v4 10 9 0 1 32). split; [left; reflexivity|]. split; [reflexivity|cbn; lia].
  - nv_cases I; intros q J; cbn in J; repeat (destruct J as [<-|J]; [split; [apply str_in_spec; reflexivity|discriminate]|]); destruct J.
  - discriminate.
  - discriminate.
  - intros _. nv_cases I; cbn; intros J X; repeat (destruct X as [X|X]; try discriminate X); repeat (destruct J as [J|J]; try discriminate J); assumption.
  - nv_cases I; intros [X|X]; try (destruct (X eq_refl)). split; [discriminate|]. intros q J. exact J.
  - nv_cases I; intros X; try (destruct (X eq_refl)). discriminate.
  - nv_cases I; cbn; intros J; repeat (destruct J as [J|J]; try discriminate J); assumption.
  - intros r J. nv_cases I; cbn in J; repeat (destruct J as [<-|J]; [cbn; lia|]); destruct J.
  - nv_cases I; reflexivity.
  - nv_cases I; (split; [repeat split; reflexivity|]); intros c J; cbn in J; repeat (destruct J as [<-|J]; [repeat split; reflexivity|]); destruct J.
  - nv_cases I; repeat split; discriminate.
Qed.
Example C94_example : nv_asks nv_sample "web" "mixed" ["1009"; "securitygroup"; "sg"] [nvbad; nvold; nvweb; nvest; nvping; nvother; nvv6] /\
  (forall w, In w ["web"; "1009"; "securitygroup"; "sg"] -> header_word w) /\
  (exists text, nv_policy 100 None nv_sample = Ok text /\ read_document text = Some nv_sample_tree) /\
  nv_terms_ok 100 "mixed" [nvbad; nvold; nvweb; nvest; nvping; nvother; nvv6].
Proof.
  split; [exists [(None, [nvother])], []; split; [reflexivity|intros f [<-|[]]; reflexivity]|].
  split; [intros w J; repeat (destruct J as [<-|J]; [split; [discriminate|split; [repeat split; reflexivity|reflexivity]]|]); destruct J|].
  split; [eexists; split; [vm_compute; reflexivity|vm_compute; reflexivity]|].
  intros t J F M Ne. apply nv_sample_ok. destruct J as [<-|[<-|[<-|[<-|[<-|[<-|[<-|[]]]]]]]]; try (cbn; tauto).
  - specialize (F 100 eq_refl). lia.
  - destruct Ne as (_ & Ne). destruct Ne. left. reflexivity.
  - destruct M as ([X|[X|[]]] & _); discriminate X.
Qed.

(** *** Policies whose section decides differently *)
Definition vpkt (v : ver) (src dst : Z) (proto : string) (sport dport : Z) (itype : string) : packet :=
  mkPacket (v, src) (v, dst) proto sport dport itype 0 (fun _ => False)
    (fun _ => False) (fun _ => False) (fun _ => False) (fun _ => False)
    "0" "" 0 64 100 64 "" "" "" "" "" "" "" "inet" "nsxv".
Lemma vpkt_traffic kind v src dst proto sport dport itype : In v (nsx_versions kind) -> 0 <= src < 2 ^ 32 -> 0 <= dst < 2 ^ 32 -> (proto <> if ver_eqb v V4 then "icmpv6" else "icmp") -> nv_traffic kind (vpkt v src dst proto sport dport itype).
Proof.
  intros I A B C. assert (2 ^ 32 <= 2 ^ width v) by (apply Z.pow_le_mono_r; destruct v; cbn; lia).
  constructor; cbn [vpkt p_src p_dst fst snd p_proto p_platform]; [auto|lia|lia|exact C|reflexivity].
Qed.
(** The section with these terms allows a packet no term matches. *)
Definition nv_opens (kind : string) (terms : list term) : Prop :=
  exists text x p, nv_policy 0 None [(Some ["web"; kind], terms)] = Ok text /\ read_document text = Some x /\ nv_traffic kind p /\ nv_decides x p "allow" /\
    forall t, In t terms -> ~ term_matches t p.
Ltac nv_absent := left; intros ? (J & T); cbn in J; repeat (destruct J as [<-|J]; [discriminate T|]); destruct J.
Ltac nv_first := split; [reflexivity|]; exists []; eexists; eexists; split; [reflexivity|]; split; [|intros ? ? []];
  split; [reflexivity|]; split; [eexists; split; [split; [right; left; reflexivity|reflexivity]|reflexivity]|].
Ltac nv_start := split; [vm_compute; reflexivity|]; split; [vm_compute; reflexivity|]; split; [apply vpkt_traffic; [left; reflexivity| | |]; cbn; try lia; discriminate|].
(** Excluding all addresses of a side means any address. *)
Theorem C94_excluded_refuted :
  nv_opens "inet" [set_source_address [v4 10 0 0 0 8] (set_source_address_exclude [v4 10 0 0 0 8] (accept "a"))].
Proof.
  eexists. eexists. exists (vpkt V4 1 2 "tcp" 99 22 ""). nv_start. split.
  - nv_first. split; [nv_absent|]. split; [nv_absent|nv_absent].
  - intros t [<-|[]] ((_ & (M & _) & _) & _). destruct M as [M|(n & [<-|[]] & _ & C)]; [discriminate M|]. cbn in C. lia.
Qed.
Print Assumptions C94_excluded_refuted.
(** So do addresses of the other family only. *)
Theorem C94_other_family_refuted : nv_opens "inet" [set_source_address [v6 db8 32] (accept "a")].
Proof.
  eexists. eexists. exists (vpkt V4 1 2 "tcp" 99 22 ""). nv_start. split.
  - nv_first. split; [nv_absent|]. split; [nv_absent|nv_absent].
  - intros t [<-|[]] ((_ & (M & _) & _) & _). destruct M as [M|(n & [<-|[]] & F & C)]; [discriminate M|discriminate F].
Qed.
Print Assumptions C94_other_family_refuted.
(** Ports without a protocol are left out. *)
Theorem C94_ports_refuted : nv_opens "inet" [set_destination_port [(22, 22)] (accept "a")].
Proof.
  eexists. eexists. exists (vpkt V4 1 2 "tcp" 99 23 ""). nv_start. split.
  - nv_first. split; [nv_absent|]. split; [nv_absent|nv_absent].
  - intros t [<-|[]] (_ & _ & (_ & _ & M) & _). destruct M as [M|(r & [<-|[]] & C)]; [discriminate M|]. unfold SpecPorts.in_range in C. cbn in C. lia.
Qed.
Print Assumptions C94_ports_refuted.
(** Exclusions without inclusions are ignored. *)
Theorem C94_exclusion_refuted : nv_opens "inet" [set_source_address_exclude [v4 10 0 0 0 8] (accept "a")].
Proof.
  eexists. eexists. exists (vpkt V4 (10 * 2 ^ 24) 2 "tcp" 99 23 ""). nv_start. split.
  - nv_first. split; [nv_absent|]. split; [nv_absent|nv_absent].
  - intros t [<-|[]] ((_ & (_ & M) & _) & _). apply M. exists (v4 10 0 0 0 8). split; [left; reflexivity|]. split; [reflexivity|cbn; lia].
Qed.
Print Assumptions C94_exclusion_refuted.
(** The number of replies to echo requests is 0, which is taken for none: all types of ICMP are allowed. *)
Theorem C94_echo_reply_refuted : nv_opens "inet" [set_protocol ["icmp"] (set_icmp_type ["echo-reply"] (accept "a"))].
Proof.
  eexists. eexists. exists (vpkt V4 1 2 "icmp" 0 0 "redirect"). nv_start. split.
  - nv_first. split; [nv_absent|]. split; [nv_absent|]. right. eexists. split; [split; [right; right; left; reflexivity|reflexivity]|]. right. eexists. split; [left; reflexivity|]. split; [reflexivity|]. split.
    + exists "1", 1. split; [eexists; split; [split; [left; reflexivity|reflexivity]|reflexivity]|]. split; [reflexivity|]. right. left. reflexivity.
    + split; [nv_absent|]. split; [nv_absent|nv_absent].
  - intros t [<-|[]] (_ & _ & _ & _ & _ & _ & (M & _) & _). destruct M as [M|(q & [<-|[]] & C)]; [discriminate M|discriminate C].
Qed.
Print Assumptions C94_echo_reply_refuted.
(** A comment with markup makes the text unreadable. *)
Theorem C94_markup_refuted : exists text,
  nv_policy 0 None [(Some ["web"; "inet"], [set_comment ["R&D"] (accept "a")])] = Ok text /\ read_document text = None.
Proof. eexists. split; [vm_compute; reflexivity|vm_compute; reflexivity]. Qed.
Print Assumptions C94_markup_refuted.
(** A second filter for the platform makes the parser fail, after the policy was accepted. *)
Theorem C94_two_filters_refuted :
  (exists g, nv_new 0 None [(Some ["a"; "inet"], [accept "a"]); (Some ["b"; "inet6"], [accept "a"])] = Ok g) /\
  nv_policy 0 None [(Some ["a"; "inet"], [accept "a"]); (Some ["b"; "inet6"], [accept "a"])] = Raise (Exn "ExpatError").
Proof. split; [eexists; vm_compute; reflexivity|vm_compute; reflexivity]. Qed.
Print Assumptions C94_two_filters_refuted.
(** A generator that is printed after another one was made has the other's name and number. *)
Theorem C94_history_refuted : exists a b sa sb text rules,
  let fs name := [(Some [name; "inet"], [set_protocol ["tcp"] (accept "a")])] in
  nv_new 0 None (fs "first") = Ok (a, sa) /\ nv_new 0 sa (fs "second") = Ok (b, sb) /\ nv_str a sb = Ok text /\
  read_document text = Some (Elem (section_head "second" []) rules).
Proof. do 6 eexists. cbv zeta. split; [vm_compute; reflexivity|]. split; [vm_compute; reflexivity|]. split; [vm_compute; reflexivity|]. vm_compute. reflexivity. Qed.
Print Assumptions C94_history_refuted.
