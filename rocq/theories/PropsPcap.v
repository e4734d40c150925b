(** Theorems C36 and C40: pcap filters (pcap.py). *)
From Coq Require Import Lia.
From Verif Require Import SpecPcap Samples BaseFacts PyStrFacts TextProofs CiscoProofs CiscoProofs2 CiscoTerm CiscoEst CiscoAcl PcapText PcapTerm PcapPolicy.
From Verif Require Import PropsPolicy.
Local Open Scope string_scope.
Local Open Scope list_scope.
Local Open Scope Z_scope.

(** ** C36: a filter selects the packets its policy accepts *)

(** The text of a policy reads as a filter expression. It selects a packet, of the families
    and the direction of the headers, exactly when the terms of some header accept it. For
    policies with one term in force that accepts, at most one before it that denies, and terms
    that deny the rest; missing for the full claim: everything else, see the refutations. *)
Theorem C36_filter_selects_accepted_partial : forall local today fs text,
  pcap_filter false today fs = Ok text -> pcap_policy_ok (pcap_shape today) today fs ->
  exists c, read_pcap local text = Some c /\
    forall p, (forall f, In f fs -> pcap_traffic local (header_cfg (fst f)) p) ->
      (c p <-> exists f, In f fs /\ pcap_decides today p (snd f) "accept").
Proof. intros local today fs text H OK. exact (filter_exact local today false fs text H OK). Qed.
Print Assumptions C36_filter_selects_accepted_partial.
(** The inverted filter selects the packets that some term denies; for policies with one term
    that denies and at most one before it that accepts. *)
Theorem C36_inverted_selects_denied_partial : forall local today fs text,
  pcap_filter true today fs = Ok text -> pcap_policy_ok (pcap_inverted_shape today) today fs ->
  exists c, read_pcap local text = Some c /\
    forall p, (forall f, In f fs -> pcap_traffic local (header_cfg (fst f)) p) ->
      (c p <-> exists f, In f fs /\ pcap_decides today p (snd f) "deny").
Proof. intros local today fs text H OK. exact (filter_exact local today true fs text H OK). Qed.
Print Assumptions C36_inverted_selects_denied_partial.

Definition ppkt (v : ver) (src dst : Z) (proto : string) (sport dport : Z) (flags : string -> Prop) (ty : string) (code : Z) : packet :=
  mkPacket (v, src) (v, dst) proto sport dport ty code flags
    (fun _ => False) (fun _ => False) (fun _ => False) (fun _ => False)
    "0" "" 0 64 100 64 "" "" "" "" "" "" "" (match v with V4 => "inet" | V6 => "inet6" end) "pcap".
Definition lab : net := v4 10 1 0 0 16.
Definition office : net := v4 10 0 0 0 8.
Definition pweb : term := set_protocol ["tcp"] (set_destination_port [(80, 80); (443, 444)] (set_option ["syn"; "tcp-established"]
  (set_destination_address [office; v6 db8 32; v4 192 168 0 0 16] (accept "web")))).
Definition plab : term := set_destination_address [lab] (set_action ["reject"] (blank "lab")).
Definition pold : term := set_expiration (Some 100) (accept "old").
Definition prest : term := set_action ["deny"] (blank "rest").
Definition pping : term := set_protocol ["icmp"] (set_icmp_type ["echo-request"; "echo-reply"] (set_icmp_code [0] (accept "ping"))).
Definition two_filters : list (list string * list term) := [(["inet"; "in"], [pold; plab; pweb; prest]); (["in"; "inet"], [pping])].
Ltac pno := intros; cbn in *; try contradiction; intuition (try discriminate; try congruence).
Ltac pcap_simple := constructor;
  [unfold only_pcap_conditions; cbn; repeat split
  |split; [left; reflexivity|intros []]
  |split; reflexivity
  |split; [valid_tac|split; [reflexivity|]]
  | | | | ].
Lemma prest_ok af : pcap_term_ok af prest.
Proof. pcap_simple; [pno|pno|pno| |pno]. split; [pno|]. split; [pno|left; reflexivity]. Qed.
Lemma plab_ok af : pcap_term_ok af plab.
Proof. pcap_simple; [intros n [<-|[]] (X & _); discriminate X|pno|pno| |pno]. split; [pno|]. split; [pno|left; reflexivity]. Qed.
Lemma pping_ok af : pcap_term_ok af pping.
Proof.
  pcap_simple; [pno|intros q [<-|[]]; apply str_in_spec; reflexivity|pno| |pno]. split; [reflexivity|]. split; [intros ty [<-|[<-|[]]]; apply str_in_spec; reflexivity|].
  right. exists 0. split; [reflexivity|]. split; [lia|discriminate].
Qed.
Lemma pweb_ok : pcap_term_ok "inet" pweb.
Proof.
  pcap_simple.
  - intros n [<-|[<-|[<-|[]]]] (X & Y); first [discriminate X|discriminate Y].
  - intros q [<-|[]]; apply str_in_spec; reflexivity.
  - intros r [<-|[<-|[]]]; (split; [cbn; lia|]; split; [discriminate|]; intros q [<-|[]]; left; reflexivity).
  - split; [pno|]. split; [pno|left; reflexivity].
  - intros _. split; [reflexivity|]. split; [reflexivity|]. intros o [<-|[<-|[]]]; apply str_in_spec; reflexivity.
Qed.
Lemma two_ok : pcap_policy_ok (pcap_shape 100) 100 two_filters.
Proof.
  split; [discriminate|]. split; [left; intros f [<-|[<-|[]]]; left; apply str_in_spec; reflexivity|]. intros f [<-|[<-|[]]]; split.
  - exists [plab], pweb, [prest]. split; [reflexivity|]. split; [cbn; lia|]. split; [intros d [<-|[]]; split; [exists "reject", []; split; [reflexivity|cbn; auto]|left; discriminate]|].
    split; [exists []; reflexivity|]. split; [left; discriminate|]. split; [right; exists office; split; [left; reflexivity|left; reflexivity]|].
    intros r [<-|[]]. split; [exists "deny", []; split; [reflexivity|cbn; auto]|]. intros [X|X]; exact (X eq_refl).
  - intros t [<-|[<-|[<-|[<-|[]]]]] F; [exfalso; specialize (F 100 eq_refl); lia|apply plab_ok|apply pweb_ok|apply prest_ok].
  - exists [], pping, []. split; [reflexivity|]. split; [cbn; lia|]. split; [intros d []|]. split; [exists []; reflexivity|]. split; [right; discriminate|]. split; [left; reflexivity|intros r []].
  - intros t [<-|[]] _. apply pping_ok.
Qed.
Example C36_example : pcap_policy_ok (pcap_shape 100) 100 two_filters /\
  pcap_filter false 100 two_filters = Ok
    (("(((dst net localhost and ((dst net 10.0.0.0/8 or dst net 192.168.0.0/16) and (proto \tcp) and (dst port 80 or dst portrange 443-444) and (tcp[tcpflags] & (tcp-syn|tcp-ack) == (tcp-syn|tcp-ack))))" ++ nl
     ++ ") and not ((dst net localhost and ((dst net 10.1.0.0/16)))" ++ nl ++ "))" ++ nl ++ "or" ++ nl
     ++ "(((dst net localhost and ((proto \icmp) and (icmp[icmptype] == 0 and icmp[icmpcode] == 0 or icmp[icmptype] == 8 and icmp[icmpcode] == 0)))" ++ nl ++ "))" ++ nl)%string).
Proof. split; [exact two_ok|]. vm_compute. reflexivity. Qed.
Ltac punfold := unfold term_matches, addresses_match, protocols_match, all_ports_match, prefixes_match, options_match, numbers_match, icmp_match,
  place_matches, link_matches, side_matches, either_matches, any_or, none_of, ports_match, in_ports, SpecPorts.in_range, text_range, opt_eq.
Ltac pholds := punfold; cbn; repeat match goal with |- _ /\ _ => split end; try tauto; try (left; reflexivity); try lia;
  try (intros X; destruct X as (? & Y & _); exact Y); try (intros; contradiction); try (right; eexists; split; [left; reflexivity|reflexivity]);
  try (right; eexists; split; [left; reflexivity|cbn; lia]).
Ltac ptraffic := split; [eexists; split; [cbn; auto|split; [reflexivity|split; [reflexivity|split; [vm_compute; congruence|reflexivity]]]]|split; [cbn; intros; try discriminate; exact I|split; [cbn; intros; try discriminate; exact I|split; [cbn; tauto|reflexivity]]]].
Definition everywhere : ipaddr -> Prop := fun _ => True.
Definition web_packet : packet := ppkt V4 5 167772163 "tcp" 3000 443 (fun o => In o ["syn"; "ack"; "tcp-established"]) "" 0.
Example C36_packet : (forall f, In f two_filters -> pcap_traffic everywhere (header_cfg (fst f)) web_packet) /\ pcap_decides 100 web_packet [pold; plab; pweb; prest] "accept".
Proof.
  split.
  - intros f [<-|[<-|[]]]; ptraffic.
  - exists [plab], pweb, [prest]. split; [reflexivity|]. split.
    + split; [|exists "accept", []; auto]. pholds.
      * right. exists office. split; [left; reflexivity|]. split; [reflexivity|]. vm_compute. split; congruence.
      * right. exists (443, 444). split; [right; left; reflexivity|cbn; lia].
    + intros y a [<-|[]] (M & _). exfalso. destruct M as ((_ & _ & [[X|(n & [<-|[]] & _ & X)] _]) & _); [discriminate X|]. revert X. vm_compute. intros (X & _). exact (X eq_refl).
Qed.

(** ** What goes wrong elsewhere *)

(** The filter of a policy reads as an expression that does not select a packet the policy
    accepts, or selects one that it does not accept. *)
Definition misses (fs : list (list string * list term)) (p : packet) : Prop :=
  exists text c, pcap_filter false 100 fs = Ok text /\ read_pcap everywhere text = Some c /\
    (forall f, In f fs -> pcap_traffic everywhere (header_cfg (fst f)) p) /\ (exists f, In f fs /\ pcap_decides 100 p (snd f) "accept") /\ ~ c p.
Definition overselects (fs : list (list string * list term)) (p : packet) : Prop :=
  exists text c, pcap_filter false 100 fs = Ok text /\ read_pcap everywhere text = Some c /\
    (forall f, In f fs -> pcap_traffic everywhere (header_cfg (fst f)) p) /\ (forall f, In f fs -> ~ pcap_decides 100 p (snd f) "accept") /\ c p.
Ltac read_filter := cbv -[net_word type_says flags_are In port_protocols proto_map].
Lemma read_by local text w ws f c : pc_words "" text = w :: ws -> expr_run local (w :: ws) ([], empty_frame, []) = Some ([], f, []) -> awaits f = false -> f_acc f = Some c ->
  read_pcap local text = Some c.
Proof. intros E R A C. unfold read_pcap. rewrite E, R, A. exact C. Qed.
Lemma run_cons local w r st st' out : expr_step local st w = Some st' -> expr_run local r st' = out -> expr_run local (w :: r) st = out.
Proof. intros E R. cbn [expr_run]. rewrite E. exact R. Qed.
Ltac read_words := eapply read_by; [vm_compute; reflexivity|repeat (eapply run_cons; [read_filter; reflexivity|]); reflexivity|reflexivity|reflexivity].
Ltac parse := eexists; eexists; split; [vm_compute; reflexivity|]; split; [read_words|]; split; [intros f If; cbn [In] in If; repeat (destruct If as [<-|If]; [ptraffic|]); destruct If|].
Ltac first_accepts := eexists; split; [left; reflexivity|]; exists []; eexists; eexists; split; [reflexivity|]; split; [split; [pholds|eexists; eexists; split; reflexivity]|intros ? ? []].
Ltac nets n text := change text with (prefixlen_text n); rewrite (net_word_covers everywhere n) by (first [valid_tac|cbn; lia]).
Ltac outside := let X := fresh in let Y := fresh in let Y1 := fresh in let Y2 := fresh in intros (X & Y); revert Y; vm_compute; intros (Y1 & Y2); first [exact (Y1 eq_refl)|exact (Y2 eq_refl)|discriminate Y2].
Ltac inside := split; [reflexivity|vm_compute; split; congruence].
Lemma never_accepts today p terms : (forall t, In t (filter (valid_on today) terms) -> accepts t -> ~ term_matches t p) -> ~ pcap_decides today p terms "accept".
Proof.
  intros H (b & x & a & E & (M & w & r & Ew & Eo) & _). apply (H x); [rewrite E; apply in_or_app; right; left; reflexivity| |exact M].
  destruct (String.eqb w "accept") eqn:Q; [|discriminate Eo]. apply String.eqb_eq in Q. subst w. exists r. exact Ew.
Qed.
Lemma first_denies today p terms d rest : filter (valid_on today) terms = d :: rest -> rejects d -> term_matches d p -> ~ pcap_decides today p terms "accept".
Proof.
  intros E R M (b & x & a & E' & S & F). rewrite E in E'. destruct b as [|y b]; cbn [app] in E'.
  - apply (f_equal (@hd_error term)) in E'. cbn in E'. injection E' as <-. apply (rejects_says p d "accept" R) in S. destruct S as (_ & X). discriminate X.
  - pose proof (f_equal (@hd_error term) E') as Ey. cbn in Ey. injection Ey as <-. assert (X : "deny" = "accept") by (apply (F d); [left; reflexivity|]; apply (rejects_says p d "deny" R); auto). discriminate X.
Qed.
Ltac deny_test := eexists; eexists; split; [reflexivity|cbn; auto].
Ltac reads_all := punfold; cbn; repeat match goal with |- _ /\ _ => split end.
(** Conditions on the source are written as conditions on the destination. *)
Definition src_only : term := set_source_address [office] (accept "src").
Theorem C36_source_is_destination_refuted :
  misses [(["inet"], [src_only])] (ppkt V4 167772163 5 "tcp" 1 2 (fun _ => False) "" 0) /\
  overselects [(["inet"], [src_only])] (ppkt V4 5 167772163 "tcp" 1 2 (fun _ => False) "" 0).
Proof.
  split.
  - parse. split.
    + first_accepts. right. exists office. split; [left; reflexivity|inside].
    + cbv beta. nets office "10.0.0.0/8". outside.
  - parse. split.
    + intros f [<-|[]]. apply never_accepts. intros t [<-|[]] _ ((_ & [[X|(n & [<-|[]] & C)] _] & _) & _); [discriminate X|]. revert C. outside.
    + cbv beta. nets office "10.0.0.0/8". inside.
Qed.
Print Assumptions C36_source_is_destination_refuted.
(** Terms that accept are joined by and. *)
Theorem C36_accepts_intersected_refuted :
  misses [(["inet"], [set_protocol ["tcp"] (accept "a"); set_protocol ["udp"] (accept "b")])] (ppkt V4 5 6 "tcp" 1 2 (fun _ => False) "" 0).
Proof. parse. split; [first_accepts|]. cbv beta. cbn. intros (_ & X). discriminate X. Qed.
Print Assumptions C36_accepts_intersected_refuted.
(** So are terms that deny: only packets that all of them match are left out. *)
Theorem C36_denies_intersected_refuted :
  overselects [(["inet"], [set_protocol ["tcp"] (set_action ["deny"] (blank "a")); set_destination_address [lab] (set_action ["deny"] (blank "b")); set_destination_address [office] (accept "c")])]
    (ppkt V4 5 167772163 "tcp" 1 2 (fun _ => False) "" 0).
Proof.
  parse. split.
  - intros f [<-|[]]. eapply first_denies; [reflexivity|deny_test|]. pholds.
  - cbv beta. nets office "10.0.0.0/8". nets lab "10.1.0.0/16". split; [inside|]. intros (_ & X). revert X. outside.
Qed.
Print Assumptions C36_denies_intersected_refuted.
(** Exclusions are negated twice. *)
Definition outside_lab : term := set_destination_address [office] (set_destination_address_exclude [lab] (accept "x")).
Theorem C36_exclusion_negated_twice_refuted :
  misses [(["inet"], [outside_lab])] (ppkt V4 5 167772163 "tcp" 1 2 (fun _ => False) "" 0) /\
  overselects [(["inet"], [outside_lab])] (ppkt V4 5 167837699 "tcp" 1 2 (fun _ => False) "" 0).
Proof.
  split; parse; split.
  - first_accepts; [right; exists office; split; [left; reflexivity|inside]|]. intros (n & [<-|[]] & C). revert C. outside.
  - cbv beta. nets office "10.0.0.0/8". nets lab "10.1.0.0/16". intros (_ & X). apply X. outside.
  - intros f [<-|[]]. apply never_accepts. intros t [<-|[]] _ ((_ & _ & [_ X]) & _). apply X. exists lab. split; [left; reflexivity|inside].
  - cbv beta. nets office "10.0.0.0/8". nets lab "10.1.0.0/16". split; [inside|]. intros X. apply X. inside.
Qed.
Print Assumptions C36_exclusion_negated_twice_refuted.
(** A term that accepts the rest is dropped: what is denied before it is selected, and nothing else. *)
Theorem C36_accept_rest_refuted :
  overselects [(["inet"], [plab; accept "rest"])] (ppkt V4 5 167837699 "tcp" 1 2 (fun _ => False) "" 0) /\
  misses [(["inet"], [plab; accept "rest"])] (ppkt V4 5 6 "tcp" 1 2 (fun _ => False) "" 0).
Proof.
  split; parse; split.
  - intros f [<-|[]]. eapply first_denies; [reflexivity|deny_test|]. pholds. right. exists lab. split; [left; reflexivity|inside].
  - cbv beta. nets lab "10.1.0.0/16". inside.
  - eexists. split; [left; reflexivity|]. exists [plab], (accept "rest"), []. split; [reflexivity|]. split; [split; [pholds|eexists; eexists; split; reflexivity]|].
    intros y a [<-|[]] (M & _). exfalso. destruct M as ((_ & _ & [[X|(n & [<-|[]] & C)] _]) & _); [discriminate X|]. revert C. outside.
  - cbv beta. nets lab "10.1.0.0/16". outside.
Qed.
Print Assumptions C36_accept_rest_refuted.
(** The order of the terms is lost. *)
Theorem C36_order_lost_refuted :
  misses [(["inet"], [set_protocol ["tcp"] (accept "a"); plab])] (ppkt V4 5 167837699 "tcp" 1 2 (fun _ => False) "" 0).
Proof. parse. split; [first_accepts|]. cbv beta. nets lab "10.1.0.0/16". intros (_ & X). apply X. inside. Qed.
Print Assumptions C36_order_lost_refuted.
(** Several ICMP codes: and, or have the same precedence. *)
Definition two_codes : term := Eval vm_compute in set_protocol ["icmp"] (set_icmp_type ["echo-reply"; "unreachable"] (set_icmp_code [0; 1] (accept "a"))).
Theorem C36_icmp_codes_refuted :
  misses [(["inet"], [two_codes])] (ppkt V4 5 6 "icmp" 0 0 (fun _ => False) "echo-reply" 0).
Proof.
  parse. split; [first_accepts|]. cbv beta. intros (_ & (_ & (_ & X))). discriminate X.
Qed.
Print Assumptions C36_icmp_codes_refuted.
(** The types of icmpv6 are not written. *)
Definition v6_types : term := Eval vm_compute in set_protocol ["icmpv6"] (set_icmp_type ["echo-reply"] (accept "a")).
Theorem C36_icmpv6_types_refuted :
  overselects [(["inet6"], [v6_types])] (ppkt V6 5 6 "icmpv6" 0 0 (fun _ => False) "echo-request" 0).
Proof.
  parse. split; [|reflexivity]. intros f [<-|[]]. apply never_accepts. intros t [<-|[]] _ (_ & _ & _ & _ & _ & _ & ([X|(ty & [<-|[]] & X)] & _) & _); discriminate X.
Qed.
Print Assumptions C36_icmpv6_types_refuted.
(** ::/0 is left out beside other addresses, which then are all that is selected. *)
Theorem C36_all_addresses_refuted :
  misses [(["inet6"], [set_destination_address [v6 0 0; v6 db8 32] (accept "a")])] (ppkt V6 5 6 "tcp" 0 0 (fun _ => False) "" 0).
Proof.
  parse. split.
  - first_accepts. right. exists (v6 0 0). split; [left; reflexivity|inside].
  - cbv beta. nets (v6 db8 32) "2001:db8::/32". outside.
Qed.
Print Assumptions C36_all_addresses_refuted.
(** The options other than flags are not written. *)
Definition replies : term := Eval vm_compute in set_protocol ["udp"] (set_option ["established"] (accept "a")).
Theorem C36_options_dropped_refuted :
  overselects [(["inet"], [replies])] (ppkt V4 5 6 "udp" 0 0 (fun _ => False) "" 0).
Proof.
  parse. split; [|reflexivity]. intros f [<-|[]]. apply never_accepts. intros t [<-|[]] _ (_ & _ & _ & _ & (_ & X & _) & _). exact (X "established" (or_introl eq_refl)).
Qed.
Print Assumptions C36_options_dropped_refuted.
(** The family of a header restricts addresses only: a filter for inet selects IPv6 packets. *)
Theorem C36_family_not_enforced_refuted : exists text c, pcap_filter false 100 [(["inet"], [set_protocol ["tcp"] (accept "a")])] = Ok text /\ read_pcap everywhere text = Some c /\
  c (ppkt V6 5 6 "tcp" 1 2 (fun _ => False) "" 0).
Proof. eexists; eexists; split; [vm_compute; reflexivity|]; split; [read_words|]. reflexivity. Qed.
Print Assumptions C36_family_not_enforced_refuted.
(** The direction of a header stays for the headers after it. *)
Definition local_5 : ipaddr -> Prop := fun a => snd a = 5.
Theorem C36_direction_stays_refuted : exists text c, pcap_filter false 100 [(["inet"; "in"], [set_protocol ["tcp"] (accept "a")]); (["inet"], [set_protocol ["udp"] (accept "b")])] = Ok text /\
  read_pcap local_5 text = Some c /\ exists p, pcap_traffic local_5 (header_cfg ["inet"]) p /\ pcap_decides 100 p [set_protocol ["udp"] (accept "b")] "accept" /\ ~ c p.
Proof.
  eexists; eexists; split; [vm_compute; reflexivity|]; split; [read_words|]. exists (ppkt V4 5 6 "udp" 1 2 (fun _ => False) "" 0). split; [|split].
  - ptraffic.
  - exists []; eexists; eexists; split; [reflexivity|]; split; [split; [pholds|eexists; eexists; split; reflexivity]|intros ? ? []].
  - cbv beta. intros [(_ & X)|(X & _)]; [discriminate X|]. vm_compute in X. discriminate X.
Qed.
Print Assumptions C36_direction_stays_refuted.
(** A header without anything to write makes the text of several headers unreadable. *)
Theorem C36_empty_header_refuted : exists text, pcap_filter false 100 [(["inet"], [accept "all"]); (["inet"], [set_protocol ["tcp"] (accept "b")])] = Ok text /\ read_pcap everywhere text = None.
Proof. eexists. split; [vm_compute; reflexivity|]. read_filter. reflexivity. Qed.
Print Assumptions C36_empty_header_refuted.
(** The inverted filter of a policy that denies the rest selects what the policy accepts. *)
Theorem C36_inverted_default_refuted : exists text c, pcap_filter true 100 [(["inet"], [set_protocol ["tcp"] (accept "a"); prest])] = Ok text /\ read_pcap everywhere text = Some c /\
  exists p, pcap_traffic everywhere (header_cfg ["inet"]) p /\ pcap_decides 100 p [set_protocol ["tcp"] (accept "a"); prest] "accept" /\ c p.
Proof.
  eexists; eexists; split; [vm_compute; reflexivity|]; split; [read_words|]. exists (ppkt V4 5 6 "tcp" 1 2 (fun _ => False) "" 0). split; [ptraffic|]. split; [|reflexivity].
  exists []; eexists; eexists; split; [reflexivity|]; split; [split; [pholds|eexists; eexists; split; reflexivity]|intros ? ? []].
Qed.
Print Assumptions C36_inverted_default_refuted.

Definition inverted_filters : list (list string * list term) := [(["inet"], [pweb; plab; accept "rest"]); (["inet"], [set_protocol ["udp"] (set_action ["deny"] (blank "u"))])].
Example C36_inverted_example : pcap_policy_ok (pcap_inverted_shape 100) 100 inverted_filters /\ exists text, pcap_filter true 100 inverted_filters = Ok text.
Proof.
  split; [|eexists; vm_compute; reflexivity]. split; [discriminate|]. split; [right; intros f [<-|[<-|[]]]; intros [[X|[]]|[X|[]]]; discriminate X|]. intros f [<-|[<-|[]]]; split.
  - exists [pweb], plab, [accept "rest"]. split; [reflexivity|]. split; [cbn; lia|]. split; [intros d [<-|[]]; split; [exists []; reflexivity|left; discriminate]|].
    split; [exists "reject", []; split; [reflexivity|cbn; auto]|]. split; [left; discriminate|]. split; [right; exists lab; split; [left; reflexivity|left; reflexivity]|].
    intros r [<-|[]]. split; [exists []; reflexivity|]. intros [X|X]; exact (X eq_refl).
  - intros t [<-|[<-|[<-|[]]]] F; [apply pweb_ok|apply plab_ok|pcap_simple; [pno|pno|pno| |pno]; split; [pno|]; split; [pno|left; reflexivity]].
  - exists []; eexists; exists []. split; [reflexivity|]. split; [cbn; lia|]. split; [intros d []|]. split; [deny_test|]. split; [right; discriminate|]. split; [left; reflexivity|intros r []].
  - intros t [<-|[]] _. pcap_simple; [pno|intros q [<-|[]]; apply str_in_spec; reflexivity|pno| |pno]. split; [pno|]. split; [pno|left; reflexivity].
Qed.

(** ** C40: expired terms *)

Theorem C40_expired_never_rendered_pcap : forall invert today fs text, pcap_filter invert today fs = Ok text ->
  pcap_filter invert today (map (fun f => (fst f, filter (valid_on today) (snd f))) fs) = Ok text.
Proof.
  intros invert today fs text. unfold pcap_filter.
  assert (S : forall terms r, pcap_select today terms = Ok r -> pcap_select today (filter (valid_on today) terms) = Ok r).
  { induction terms as [|t terms IH]; intros r H; [exact H|]. cbn [pcap_select] in H. cbn [filter]. rewrite (valid_on_expired today t).
    destruct (expired today t) eqn:E; cbn [negb]; [apply IH, H|]. cbn [pcap_select]. rewrite E. destruct (t_action t) as [|a acts]; [discriminate H|].
    destruct (pcap_select today terms) as [m|e]; [|discriminate H]. rewrite (IH m eq_refl). exact H. }
  assert (K : forall fs d es, pcap_translate today d fs = Ok es -> pcap_translate today d (map (fun f => (fst f, filter (valid_on today) (snd f))) fs) = Ok es).
  { induction fs0 as [|(o, terms) rest IH]; intros d es H; [exact H|]. cbn [pcap_translate map fst snd] in *. destruct (existsb _ o); [discriminate H|].
    destruct (pcap_family o) as [af|]; cbn [bind] in *; [|discriminate H]. destruct (pcap_select today terms) as [ts|] eqn:Es; cbn [bind] in H; [|discriminate H]. rewrite (S terms ts Es). cbn [bind].
    destruct (pcap_translate today (pcap_direction d o) rest) as [more|] eqn:Em; cbn [bind] in H; [|discriminate H]. rewrite (IH _ _ Em). exact H. }
  destruct (pcap_translate today "" fs) as [es|] eqn:E; cbn [bind]; [|discriminate]. rewrite (K fs "" es E). auto.
Qed.
Print Assumptions C40_expired_never_rendered_pcap.
Example C40_pcap_example : filter (valid_on 100) [pold; plab; pweb; prest] = [plab; pweb; prest] /\ exists text, pcap_filter false 100 two_filters = Ok text.
Proof. split; [reflexivity|]. eexists. exact (proj2 C36_example). Qed.
