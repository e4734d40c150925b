(** Theorems C87: NSX-T security policies (nsxt.py). *)
From Coq Require Import Lia ZifyBool ZifyNat.
From Verif Require Import SpecCisco Samples BaseFacts PyStrFacts TextProofs CiscoProofs QuietTerm GceProofs NsxProofs NsxPolicy.
From Verif Require Import PropsPolicy SpecGce SpecNsx.
Local Open Scope string_scope.
Local Open Scope list_scope.
Local Open Scope Z_scope.

(** ** C87: the rules decide as the policy file says *)

(** The interface accepts the groups of all rules, and the first rule that matches a packet of the
    families of the header, in either direction, has the action of the first term in force that matches
    it; terms for established connections are left to the firewall, which allows replies.  Missing for
    the full claim: the policies of the refutations below. *)
Theorem C87_rules_decide_as_policy_partial : forall today shared fs name kind more terms j,
  nsx_asks fs name kind more terms -> nsx_policy today shared fs = Ok j -> nsx_terms_ok today kind terms ->
  nsx_accepted j /\ forall p o, nsx_traffic kind p -> (nsx_decides j p o <-> first_says (nsx_term_says today p) terms o).
Proof. exact nsx_decides_spec. Qed.
Print Assumptions C87_rules_decide_as_policy_partial.

(** The policy has the name and the number of its header, or its name instead of a number, whatever
    generators were made before. *)
Theorem C87_policy_of_header : forall today shared fs name kind more terms j,
  nsx_asks fs name kind more terms -> nsx_policy today shared fs = Ok j ->
  In kind ["inet"; "inet6"; "mixed"] /\ is_text "resource_type" j "SecurityPolicy" /\ is_text "display_name" j name /\
  is_text "id" j (match more with x :: _ => if String.eqb x "securitygroup" then name else x | [] => name end) /\
  path ["scope"] j = Some (JList [JStr (match group_word more with
    | None => "ANY" | Some g => if starts_with "/" g then g else append "/infra/domains/default/groups/" g end)]) /\
  forall shared', nsx_policy today shared' fs = Ok j.
Proof.
  intros today shared fs name kind more terms j (before & comment & after & -> & N) H.
  assert (Sh : forall sh, nsx_translate today sh (before ++ (Some (name :: kind :: more), comment, terms) :: after) =
    let! o := nsx_parse (name :: kind :: more) in let! es := nsx_terms today (no_kind o) [] terms in Ok ([(comment, es)], Some o)).
  { intros sh. rewrite translate_skip by (intros f I; apply N, in_app_iff; auto). cbn [nsx_translate fst snd]. destruct (nsx_parse (name :: kind :: more)) as [o|]; [|reflexivity]. cbn [bind].
    destruct (nsx_terms _ _ _ _); [|reflexivity]. cbn [bind]. rewrite translate_none by (intros f I; apply N, in_app_iff; auto). reflexivity. }
  assert (Sp : forall sh, nsx_policy today sh (before ++ (Some (name :: kind :: more), comment, terms) :: after) = nsx_policy today shared (before ++ (Some (name :: kind :: more), comment, terms) :: after)).
  { intros sh. unfold nsx_policy, nsx_new. rewrite !Sh. reflexivity. }
  assert (Last : forall sh, nsx_policy today sh (before ++ (Some (name :: kind :: more), comment, terms) :: after) = Ok j) by (intros sh; rewrite Sp; exact H).
  unfold nsx_policy, nsx_new in H. rewrite Sh in H. apply bind_ok in H. destruct H as ((obj, shared') & H & Hs). apply bind_ok in H. destruct H as ([] & _ & H).
  apply bind_ok in H. destruct H as (o & Ho & H). apply bind_ok in H. destruct H as (es & _ & H). apply ok_inj, pair_equal_spec in H. destruct H as (<- & <-).
  cbn [nsx_str] in Hs. apply bind_ok in Hs. destruct Hs as (rs & _ & Hs). apply ok_inj in Hs. subst j.
  destruct (parse_kind _ _ Ho) as (Hk & nm & mr & E & En & Ei). injection E as <- Ek <-.
  split; [rewrite Ek; exact Hk|]. split; [reflexivity|]. split; [unfold is_text; cbn -[String.append]; rewrite En; reflexivity|].
  split; [|split; [|exact Last]].
  - unfold is_text. change (path ["id"] _) with (Some (JStr (match no_id o with Some i => i | None => no_name o end))). rewrite Ei, En. destruct more as [|x more]; [reflexivity|]. destruct (String.eqb x "securitygroup"); reflexivity.
  - change (path ["scope"] _) with (Some (JList [JStr (no_scope o)])).
    unfold nsx_parse in Ho. destruct (3 <? List.length more)%nat; [discriminate Ho|]. destruct (negb _) in Ho; [discriminate Ho|]. cbv zeta in Ho. apply bind_ok in Ho. destruct Ho as (scope & Hsc & Ho).
    apply ok_inj in Ho. subst o. cbn [no_scope].
    assert (G : forall l sc, nsx_scope l = Ok sc -> sc = match group_word l with None => "ANY" | Some g => if starts_with "/" g then g else append "/infra/domains/default/groups/" g end).
    { induction l as [|x l IH]; intros sc X; cbn [nsx_scope group_word] in *; [apply ok_inj in X; auto|]. destruct (String.eqb x "securitygroup"); [|apply IH, X].
      destruct l as [|g l]; [discriminate X|]. destruct (is_empty g); [discriminate X|]. apply ok_inj in X. cbn [hd_error]. auto. }
    apply G in Hsc. rewrite Hsc. destruct more as [|x more]; [reflexivity|]. cbn [group_word] in *. destruct (String.eqb x "securitygroup") eqn:Ex; [cbn [group_word]; rewrite Ex; reflexivity|reflexivity].
Qed.
Print Assumptions C87_policy_of_header.

(** *** A policy that meets the hypotheses *)
Definition xbad : term := Eval vm_compute in set_source_address [v4 10 6 0 0 16; v6 db8 32] (set_action ["deny"] (blank "bad")).
Definition xweb : term := Eval vm_compute in set_protocol ["tcp"; "udp"] (set_destination_port [(80, 80); (8000, 8080)] (set_source_address [v4 10 0 0 0 14]
  (set_source_address_exclude [v4 10 2 0 0 15] (set_destination_address [v4 10 9 0 0 16; v6 db8 32] (accept "web"))))).
Definition xping : term := Eval vm_compute in set_protocol ["icmp"] (set_icmp_type ["echo-request"; "unreachable"] (accept "ping")).
Definition xv6 : term := Eval vm_compute in set_protocol ["icmpv6"; "tcp"] (set_action ["reject"] (blank "v6")).
Definition xest : term := Eval vm_compute in set_option ["tcp-established"] (set_protocol ["tcp"] (accept "est")).
Definition xold : term := Eval vm_compute in set_expiration (Some 100) (set_protocol ["gre"] (accept "old")).
Definition xother : term := Eval vm_compute in set_platform ["juniper"] (set_protocol ["gre"] (accept "other")).
Definition nsx_sample : list (nsx_header * list term) :=
  [((None, []), [xother]); ((Some ["web"; "mixed"; "1009"; "securitygroup"; "sg"], ["Servers."]), [xbad; xold; xweb; xest; xping; xother; xv6])].
Definition xrule (action name : string) (src dst : list string) (services : option (list json)) : json :=
  JDict ([("action", JStr action); ("resource_type", JStr "Rule"); ("display_name", JStr name);
          ("source_groups", JList (map JStr src)); ("destination_groups", JList (map JStr dst));
          ("services", JList [JStr "ANY"]); ("profiles", JList [JStr "ANY"]); ("scope", JList [JStr "ANY"]); ("logged", JBool false); ("notes", JStr "");
          ("direction", JStr "IN_OUT"); ("ip_protocol", JStr "IPV4_IPV6")] ++ match services with Some l => [("service_entries", JList l)] | None => [] end).
Definition xports (w : string) : json :=
  JDict [("l4_protocol", JStr w); ("resource_type", JStr "L4PortSetServiceEntry"); ("destination_ports", JList [JStr "80"; JStr "8000-8080"])].
Definition nsx_sample_json : json :=
  JDict [("rules", JList
    [xrule "DROP" "bad" ["10.6.0.0/16"; "2001:db8::/32"] ["ANY"] None;
     xrule "ALLOW" "web" ["10.0.0.0/15"] ["10.9.0.0/16"] (Some [xports "TCP"; xports "UDP"]);
     xrule "ALLOW" "ping" ["ANY"] ["ANY"] (Some (map (fun n => JDict [("protocol", JStr "ICMPv4"); ("resource_type", JStr "ICMPTypeServiceEntry"); ("icmp_type", JNum n)]) [3; 8]));
     xrule "REJECT" "v6" ["ANY"] ["ANY"] (Some [JDict [("protocol", JStr "ICMPv6"); ("resource_type", JStr "ICMPTypeServiceEntry")]; JDict [("l4_protocol", JStr "TCP"); ("resource_type", JStr "L4PortSetServiceEntry")]])]);
    ("resource_type", JStr "SecurityPolicy"); ("display_name", JStr "web"); ("id", JStr "1009"); ("category", JStr "Application"); ("is_default", JStr "false");
    ("scope", JList [JStr "/infra/domains/default/groups/sg"]); ("description", JStr "$Id:$ $Date:$ $Revision:$ :: Servers.")].
Lemma none_side vs : nsx_side_ok vs [] [].
Proof. split; [constructor|]. split; [constructor|]. left. auto. Qed.
Lemma nsx_sample_ok t : In t [xbad; xweb; xping; xv6] -> nsx_term_ok [V4; V6] t.
Proof.
  intros I. constructor.
  - destruct I as [<-|[<-|[<-|[<-|[]]]]]; try apply none_side.
    + split; [valid_tac|]. split; [constructor|]. right. split; [discriminate|]. split; [|intros _ n [<-|[<-|[]]] E; discriminate].
      exists (V4, 168165377). split; [left; reflexivity|]. split; [cbn; lia|]. split; [discriminate|]. split; [right|intros (n & [] & _)]. exists (v4 10 6 0 0 16). split; [left; reflexivity|]. split; [reflexivity|cbn; lia].
    + split; [valid_tac|]. split; [valid_tac|]. right. split; [discriminate|]. split; [|intros _ n [<-|[]] E; discriminate].
      exists (V4, 167772161). split; [left; reflexivity|]. split; [cbn; lia|]. split; [discriminate|]. split; [right; exists (v4 10 0 0 0 14); split; [left; reflexivity|split; [reflexivity|cbn; lia]]|].
      intros (n & [<-|[]] & _ & C). cbn in C. lia.
  - destruct I as [<-|[<-|[<-|[<-|[]]]]]; try apply none_side.
    split; [valid_tac|]. split; [constructor|]. right. split; [discriminate|]. split; [|intros _ n [<-|[<-|[]]] E; discriminate].
    exists (V4, 168361985). split; [left; reflexivity|]. split; [cbn; lia|]. split; [discriminate|]. split; [right|intros (n & [] & _)]. exists (v4 10 9 0 0 16). split; [left; reflexivity|]. split; [reflexivity|cbn; lia].
  - destruct I as [<-|[<-|[<-|[<-|[]]]]]; intros n J; cbn in J; repeat (destruct J as [<-|J]; [intros _ X; discriminate X|]); destruct J.
  - destruct I as [<-|[<-|[<-|[<-|[]]]]]; intros q J; apply str_in_spec; cbn in J; repeat (destruct J as [<-|J]; [reflexivity|]); destruct J.
  - discriminate.
  - discriminate.
  - intros _. destruct I as [<-|[<-|[<-|[<-|[]]]]]; cbn; intros J X; repeat (destruct X as [X|X]; try discriminate X); repeat (destruct J as [J|J]; try discriminate J); assumption.
  - destruct I as [<-|[<-|[<-|[<-|[]]]]]; intros [X|X]; try (destruct (X eq_refl)). split; [discriminate|]. intros q J. exact J.
  - destruct I as [<-|[<-|[<-|[<-|[]]]]]; intros X; try (destruct (X eq_refl)). discriminate.
  - intros r J. destruct I as [<-|[<-|[<-|[<-|[]]]]]; cbn in J; repeat (destruct J as [<-|J]; [cbn; lia|]); destruct J.
  - destruct I as [<-|[<-|[<-|[<-|[]]]]]; reflexivity.
  - destruct I as [<-|[<-|[<-|[<-|[]]]]]; repeat split; discriminate.
Qed.
Example C87_example : nsx_asks nsx_sample "web" "mixed" ["1009"; "securitygroup"; "sg"] [xbad; xold; xweb; xest; xping; xother; xv6] /\
  nsx_policy 100 None nsx_sample = Ok nsx_sample_json /\ nsx_terms_ok 100 "mixed" [xbad; xold; xweb; xest; xping; xother; xv6].
Proof.
  split; [exists [((None, []), [xother])], ["Servers."], []; split; [reflexivity|intros f [<-|[]]; reflexivity]|]. split; [vm_compute; reflexivity|].
  intros t J F M Ne. apply nsx_sample_ok. destruct J as [<-|[<-|[<-|[<-|[<-|[<-|[<-|[]]]]]]]]; try (cbn; tauto).
  - specialize (F 100 eq_refl). lia.
  - destruct Ne as (_ & Ne). destruct Ne. left. reflexivity.
  - destruct M as ([X|[X|[]]] & _); discriminate X.
Qed.

(** *** Policies whose rules decide differently *)
Definition npkt (v : ver) (src dst : Z) (proto : string) (sport dport : Z) : packet :=
  mkPacket (v, src) (v, dst) proto sport dport "" 0 (fun _ => False)
    (fun _ => False) (fun _ => False) (fun _ => False) (fun _ => False)
    "0" "" 0 64 100 64 "" "" "" "" "" "" "" "inet" "nsxt".
Lemma npkt_traffic kind v src dst proto sport dport : In v (nsx_versions kind) -> 0 < src < 2 ^ 32 -> 0 < dst < 2 ^ 32 -> (proto <> if ver_eqb v V4 then "icmpv6" else "icmp") -> nsx_traffic kind (npkt v src dst proto sport dport).
Proof.
  intros I A B C. assert (2 ^ 32 <= 2 ^ width v) by (apply Z.pow_le_mono_r; destruct v; cbn; lia).
  assert (N : forall x, 0 < x -> (v, x) <> (V4, 0)) by (intros x X E; injection E as _ E; lia).
  constructor; cbn [npkt p_src p_dst fst snd p_proto p_platform]; [auto|split; [lia|apply N; lia]|split; [lia|apply N; lia]|exact C|reflexivity].
Qed.
(** The policy with these terms allows a packet no term matches. *)
Definition nsx_opens (kind : string) (terms : list term) : Prop :=
  exists j p, nsx_policy 0 None [((Some ["web"; kind], []), terms)] = Ok j /\ nsx_traffic kind p /\ nsx_decides j p "ALLOW" /\
    forall t, In t terms -> ~ term_matches t p.
Ltac nsx_first := eexists; split; [vm_compute; reflexivity|]; exists []; eexists; eexists; split; [reflexivity|]; split; [|intros ? ? []];
  split; [reflexivity|]; split; [reflexivity|]; split; [reflexivity|]; split; [reflexivity|]; split; [reflexivity|]; split; [reflexivity|].
Ltac nsx_any_group := eexists; split; [reflexivity|]; eexists; eexists; split; [reflexivity|]; split; [left; reflexivity|left; reflexivity].
(** Excluding all addresses of a side means any address. *)
Theorem C87_excluded_refuted :
  nsx_opens "inet" [set_source_address [v4 10 0 0 0 8] (set_source_address_exclude [v4 10 0 0 0 8] (accept "a"))].
Proof.
  eexists. exists (npkt V4 1 2 "tcp" 99 22). split; [vm_compute; reflexivity|]. split; [apply npkt_traffic; [left; reflexivity| | |]; cbn; try lia; discriminate|]. split.
  - nsx_first. split; [nsx_any_group|]. split; [nsx_any_group|]. split; [eexists; split; [reflexivity|left; auto]|exact Logic.I].
  - intros t [<-|[]] ((_ & (M & _) & _) & _). destruct M as [M|(n & [<-|[]] & _ & C)]; [discriminate M|]. cbn in C. lia.
Qed.
Print Assumptions C87_excluded_refuted.
(** So do addresses of the other family only. *)
Theorem C87_other_family_refuted : nsx_opens "inet" [set_source_address [v6 db8 32] (accept "a")].
Proof.
  eexists. exists (npkt V4 1 2 "tcp" 99 22). split; [vm_compute; reflexivity|]. split; [apply npkt_traffic; [left; reflexivity| | |]; cbn; try lia; discriminate|]. split.
  - nsx_first. split; [nsx_any_group|]. split; [nsx_any_group|]. split; [eexists; split; [reflexivity|left; auto]|exact Logic.I].
  - intros t [<-|[]] ((_ & (M & _) & _) & _). destruct M as [M|(n & [<-|[]] & F & C)]; [discriminate M|discriminate F].
Qed.
Print Assumptions C87_other_family_refuted.
(** All addresses of IPv4 mean those of IPv6 as well in a mixed filter. *)
Theorem C87_all_mixed_refuted : nsx_opens "mixed" [set_source_address [v4 0 0 0 0 0] (accept "a")].
Proof.
  eexists. exists (npkt V6 1 2 "tcp" 99 22). split; [vm_compute; reflexivity|]. split; [apply npkt_traffic; [right; left; reflexivity| | |]; cbn; try lia; discriminate|]. split.
  - nsx_first. split; [nsx_any_group|]. split; [nsx_any_group|]. split; [eexists; split; [reflexivity|right; right; reflexivity]|exact Logic.I].
  - intros t [<-|[]] ((_ & (M & _) & _) & _). destruct M as [M|(n & [<-|[]] & F & C)]; [discriminate M|discriminate F].
Qed.
Print Assumptions C87_all_mixed_refuted.
(** Protocols other than TCP, UDP and ICMP give no services, which is any service. *)
Theorem C87_protocol_refuted : nsx_opens "inet" [set_protocol ["gre"] (accept "a")].
Proof.
  eexists. exists (npkt V4 1 2 "tcp" 99 22). split; [vm_compute; reflexivity|]. split; [apply npkt_traffic; [left; reflexivity| | |]; cbn; try lia; discriminate|]. split.
  - nsx_first. split; [nsx_any_group|]. split; [nsx_any_group|]. split; [eexists; split; [reflexivity|left; auto]|]. exists []. split; [reflexivity|left; reflexivity].
  - intros t [<-|[]] (_ & (M & _) & _). destruct M as [M|(q & [<-|[]] & C)]; [discriminate M|discriminate C].
Qed.
Print Assumptions C87_protocol_refuted.
(** Ports without a protocol are left out. *)
Theorem C87_ports_refuted : nsx_opens "inet" [set_destination_port [(22, 22)] (accept "a")].
Proof.
  eexists. exists (npkt V4 1 2 "tcp" 99 23). split; [vm_compute; reflexivity|]. split; [apply npkt_traffic; [left; reflexivity| | |]; cbn; try lia; discriminate|]. split.
  - nsx_first. split; [nsx_any_group|]. split; [nsx_any_group|]. split; [eexists; split; [reflexivity|left; auto]|exact Logic.I].
  - intros t [<-|[]] (_ & _ & (_ & _ & M) & _). destruct M as [M|(r & [<-|[]] & C)]; [discriminate M|]. unfold SpecPorts.in_range in C. cbn in C. lia.
Qed.
Print Assumptions C87_ports_refuted.
(** Exclusions without inclusions are ignored. *)
Theorem C87_exclusion_refuted : nsx_opens "inet" [set_source_address_exclude [v4 10 0 0 0 8] (accept "a")].
Proof.
  eexists. exists (npkt V4 (10 * 2 ^ 24) 2 "tcp" 99 23). split; [vm_compute; reflexivity|]. split; [apply npkt_traffic; [left; reflexivity| | |]; cbn; try lia; discriminate|]. split.
  - nsx_first. split; [nsx_any_group|]. split; [nsx_any_group|]. split; [eexists; split; [reflexivity|left; auto]|exact Logic.I].
  - intros t [<-|[]] ((_ & (_ & M) & _) & _). apply M. exists (v4 10 0 0 0 8). split; [left; reflexivity|]. split; [reflexivity|cbn; lia].
Qed.
Print Assumptions C87_exclusion_refuted.
(** 0.0.0.0 is not left out of the destinations when there are no sources. *)
Theorem C87_zero_refuted : exists j,
  nsx_policy 0 None [((Some ["web"; "inet"], []), [set_destination_address [v4 0 0 0 0 8] (accept "a")])] = Ok j /\ ~ nsx_accepted j.
Proof.
  eexists. split; [vm_compute; reflexivity|]. intros H. refine (H _ _ "destination_groups" "0.0.0.0/8" eq_refl (or_introl eq_refl) (or_intror (or_introl eq_refl)) _ _).
  - eexists. split; [reflexivity|]. eexists. exists "0.0.0.0/8". split; [reflexivity|]. split; [left; reflexivity|reflexivity].
  - exists 0, 8. cbn. split; [reflexivity|]. split; [reflexivity|]. split; [reflexivity|]. split; [lia|reflexivity].
Qed.
Print Assumptions C87_zero_refuted.
(** A generator that is printed after another one was made has the other's name and number. *)
Theorem C87_history_refuted : exists a b sa sb j,
  let fs name := [((Some [name; "inet"], []), [set_protocol ["tcp"] (accept "a")])] in
  nsx_new 0 None (fs "first") = Ok (a, sa) /\ nsx_new 0 sa (fs "second") = Ok (b, sb) /\ nsx_str a sb = Ok j /\ is_text "display_name" j "second".
Proof. do 5 eexists. cbv zeta. split; [vm_compute; reflexivity|]. split; [vm_compute; reflexivity|]. split; [vm_compute; reflexivity|]. reflexivity. Qed.
Print Assumptions C87_history_refuted.
