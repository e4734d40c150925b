(** Theorems C81: hierarchical firewall policies of the Google cloud (gcp_hf.py). *)
From Coq Require Import Lia Permutation.
From Verif Require Import SpecGcpHf Samples BaseFacts PyStrFacts IPFacts TextProofs CiscoProofs GceProofs QuietTerm GcpHfProofs GcpHfPolicy GcpHfLimits.
From Verif Require Import PropsPolicy.
Local Open Scope string_scope.
Local Open Scope list_scope.
Local Open Scope Z_scope.

(** ** C81: the rules keep the limits of the cloud and decide as the policy *)

(** The rules of all headers are numbered 1, 2, ... in the order in which they are written. *)
Theorem C81_priorities : forall afs apis fs policy rules, hf_policy afs apis fs = Ok [policy] -> rules_of policy rules ->
  forall i r, nth_error rules i = Some r -> path ["priority"] r = Some (JNum (1 + Z.of_nat i)).
Proof. exact hf_numbered. Qed.
Print Assumptions C81_priorities.

(** Every rule keeps the limits of the cloud, the policy has a name that the cloud takes, and what
    the rules are charged in total is within the limit of each header.  Missing for the full claim:
    threat lists under the older interface, which are not counted. *)
Theorem C81_limits_partial : forall afs apis fs policy rules, hf_policy afs apis fs = Ok [policy] -> rules_of policy rules ->
  Permutation afs family_words -> Permutation apis ["beta"; "ga"] ->
  (forall r, In r rules -> hf_within r) /\
  (exists key s, In key ["shortName"; "displayName"] /\ path [key] policy = Some (JStr s)) /\
  (forall key s, In key ["shortName"; "displayName"] -> path [key] policy = Some (JStr s) -> rfc1035 s) /\
  ((forall options hs h, In (options, hs) fs -> In "beta" options -> In h hs -> no_prefix h) ->
    exists ns, Forall2 charge rules ns /\ forall options hs n, In (options, hs) fs -> limit_of options n -> fold_right Z.add 0 ns <= n <= 65536).
Proof. exact hf_limits. Qed.
Print Assumptions C81_limits_partial.

(** For each direction and family the rule with the lowest number that matches decides as the
    first term that matches in the headers for that direction and family, for policies with any
    number of headers.  Missing for the full claim: addresses of the other side, targets, threat
    lists, and headers that name two families. *)
Theorem C81_rules_decide_as_policy_partial : forall afs apis fs policy rules w v p outcome, hf_policy afs apis fs = Ok [policy] -> rules_of policy rules ->
  Permutation afs family_words -> Permutation apis ["beta"; "ga"] ->
  (forall options hs, In (options, hs) fs -> one_family_word options) ->
  (forall options hs h, In (options, hs) fs -> header_way options w -> In h hs -> meant_for "gcp_hf" (h_term h) -> hf_term_ok w h) ->
  hf_traffic v p ->
  (hf_decides w rules p outcome <-> hf_policy_decides w v fs p outcome).
Proof. exact hf_decides_as_policy. Qed.
Print Assumptions C81_rules_decide_as_policy_partial.

(** *** A policy that meets the hypotheses *)
Definition plain_hf (t : term) : hf_term := mkHfTerm t [].
Definition hweb : term := Eval vm_compute in set_destination_port [(80, 80); (8000, 8100)] (set_protocol ["tcp"; "gre"] (set_source_address [v4 10 0 0 0 8] (accept "web"))).
Definition hping : term := Eval vm_compute in set_action ["next"] (set_protocol ["icmpv6"] (blank "ping")).
Definition hrest : term := Eval vm_compute in set_action ["deny"] (blank "rest").
Definition hfs := [(["corp"; "mixed"; "500"], [plain_hf hweb; plain_hf hping; plain_hf hrest]); (["corp"; "EGRESS"; "beta"; "500"], [plain_hf hrest])].
Definition hafs := ["mixed"; "inet"; "inet6"].
Definition hapis := ["ga"; "beta"].
Definition hpkt (v : ver) (src dst : Z) (proto : string) (dport : Z) : packet :=
  mkPacket (v, src) (v, dst) proto 5000 dport "" 0 (fun _ => False)
    (fun _ => False) (fun _ => False) (fun _ => False) (fun _ => False)
    "0" "" 0 64 100 64 "" "" "" "" "" "" "" "inet" "gcp_hf".
Lemma hafs_ok : Permutation hafs family_words.
Proof. unfold hafs, family_words. exact (Permutation_middle ["inet"; "inet6"] [] "mixed"). Qed.
Lemma hapis_ok : Permutation hapis ["beta"; "ga"]. Proof. apply perm_swap. Qed.
Lemma hf_quiet t : In t [hweb; hping; hrest] -> quiet "gcp_hf" t.
Proof. intros [<-|[<-|[<-|[]]]]; (constructor; repeat split; try reflexivity; try (left; reflexivity); intros []). Qed.
Lemma hf_plain_ok w t : In t [hweb; hping; hrest] -> w = Ingress \/ t = hrest -> hf_term_ok w (plain_hf t).
Proof.
  intros I W. assert (C : (w = Ingress /\ In t [hweb; hping; hrest]) \/ (w = Egress /\ t = hrest)).
  { destruct W as [->| ->]; [left; auto|]. destruct w; [left|right]; split; auto. }
  clear I W. destruct C as [(-> & [<-|[<-|[<-|[]]]])|(-> & ->)]; constructor; try reflexivity; try (split; [reflexivity|discriminate]); try (split; discriminate); try (split; reflexivity); try valid_tac.
  all: try (intros n X; cbn in X; first [destruct X; fail|destruct X as [<-|[]]; discriminate]).
  all: try (split; [intros X; first [discriminate|contradiction X; reflexivity]|intros r X; cbn in X; repeat destruct X as [<-|X]; try destruct X; cbn; lia]).
  all: intros q X; cbn in X; repeat destruct X as [<-|X]; try destruct X; (split; [apply str_in_spec; reflexivity|discriminate]).
Qed.
Lemma hf_plain_traffic v p : (exists s d proto k, p = hpkt v s d proto k /\ 0 <= s < 2 ^ 32 /\ 0 <= d < 2 ^ 32 /\ In proto ["tcp"; "gre"; "udp"]) -> hf_traffic v p.
Proof.
  intros (s & d & proto & k & -> & S & D & P). assert (W : 2 ^ 32 <= 2 ^ width v) by (apply Z.pow_le_mono_r; [lia|destruct v; cbn; lia]).
  constructor; [|destruct P as [<-|[<-|[<-|[]]]]; (split; [apply str_in_spec; reflexivity|split; [discriminate|]]); destruct v; intros X; repeat (destruct X as [X|X]; [discriminate X|]); exact X|reflexivity].
  split; [reflexivity|]. split; [reflexivity|]. unfold addressable. cbn [hpkt p_src p_dst fst snd]. lia.
Qed.
Example C81_example : exists policy rules, hf_policy hafs hapis hfs = Ok [policy] /\ rules_of policy rules /\ List.length rules = 5%nat /\
  (forall options hs, In (options, hs) hfs -> one_family_word options) /\
  (forall w options hs h, In (options, hs) hfs -> header_way options w -> In h hs -> hf_term_ok w h) /\
  hf_decides Ingress rules (hpkt V4 (10 * 2 ^ 24) 1 "gre" 8080) "allow" /\
  hf_decides Ingress rules (hpkt V4 (10 * 2 ^ 24) 1 "tcp" 443) "deny" /\
  hf_decides Ingress rules (hpkt V6 5 1 "udp" 443) "deny" /\ hf_decides Egress rules (hpkt V4 5 1 "udp" 443) "deny" /\ ~ hf_decides Egress rules (hpkt V6 5 1 "udp" 443) "deny".
Proof.
  assert (X : exists l0 fields, hf_policy hafs hapis hfs = Ok [JDict (("rules", JList l0) :: fields)] /\ List.length l0 = 5%nat) by (eexists _, _; split; [vm_compute; reflexivity|reflexivity]).
  destruct X as (l0 & fields & E & Len). remember (JDict (("rules", JList l0) :: fields)) as policy eqn:P. exists policy, l0. split; [exact E|].
  assert (R : rules_of policy l0) by (subst policy; reflexivity). clear P. split; [exact R|]. split; [exact Len|].
  assert (One : forall options hs, In (options, hs) hfs -> one_family_word options).
  { intros options hs [X|[X|[]]] a b Ia Ib Ja Jb; assert (Eo := f_equal fst X); cbn [fst] in Eo; subst options; cbn in Ia, Ib, Ja, Jb; repeat destruct Ja as [<-|Ja]; try destruct Ja; repeat destruct Jb as [<-|Jb]; try destruct Jb; try reflexivity; intuition discriminate. }
  assert (Ok_ : forall w options hs h, In (options, hs) hfs -> header_way options w -> In h hs -> hf_term_ok w h).
  { intros w options hs h [X|[X|[]]] W I; assert (Eo := f_equal fst X); assert (Eh := f_equal snd X); cbn [fst snd] in Eo, Eh; subst options hs.
    - destruct w; [|cbn in W; intuition discriminate]. destruct I as [<-|[<-|[<-|[]]]]; apply hf_plain_ok; auto; cbn; tauto.
    - destruct I as [<-|[]]. apply hf_plain_ok; auto. cbn. tauto. }
  split; [exact One|]. split; [exact Ok_|].
  assert (D : forall w v p o, hf_traffic v p -> (hf_decides w l0 p o <-> hf_policy_decides w v hfs p o)).
  { intros w v p o T. apply (C81_rules_decide_as_policy_partial hafs hapis hfs policy l0 w v p o E R hafs_ok hapis_ok One); [|exact T]. intros options hs h I W J _. exact (Ok_ w options hs h I W J). }
  assert (Tr : forall v s d proto k, 0 <= s < 2 ^ 32 -> 0 <= d < 2 ^ 32 -> In proto ["tcp"; "gre"; "udp"] -> hf_traffic v (hpkt v s d proto k)) by (intros; apply hf_plain_traffic; eauto 10).
  assert (Rest : forall v s d proto k, term_matches hrest (hpkt v s d proto k)).
  { intros. apply (quiet_matches "gcp_hf"); [apply hf_quiet; cbn; tauto|reflexivity|]. split; [split; [left; reflexivity|intros (n & [] & _)]|]. split; [split; [left; reflexivity|intros (n & [] & _)]|].
    split; [left; reflexivity|]. split; [left; reflexivity|]. split; [left; reflexivity|]. split; [intros o []|left; reflexivity]. }
  assert (Web : forall v s d proto k, term_matches hweb (hpkt v s d proto k) -> covered [v4 10 0 0 0 8] (v, s) /\ (k = 80 \/ 8000 <= k <= 8100)).
  { intros v s d proto k M. apply (quiet_matches "gcp_hf") in M; [|apply hf_quiet; cbn; tauto|reflexivity]. change (t_source_address hweb) with [v4 10 0 0 0 8] in M. change (t_destination_port hweb) with [(80, 80); (8000, 8100)] in M. destruct M as ((M1 & _) & _ & _ & _ & M5 & _).
    destruct M1 as [M1|M1]; [discriminate M1|]. destruct M5 as [M5|(r & I & M5)]; [discriminate M5|]. split; [exact M1|]. unfold in_range in M5. destruct I as [<-|[<-|[]]]; cbn [fst snd hpkt p_dport] in M5; lia. }
  assert (Ping : forall v s d proto k, In proto ["tcp"; "gre"; "udp"] -> ~ term_matches hping (hpkt v s d proto k)).
  { intros v s d proto k I M. apply (quiet_matches "gcp_hf") in M; [|apply hf_quiet; cbn; tauto|reflexivity]. destruct M as (_ & _ & [M|(q & [<-|[]] & M)] & _); [discriminate M|]. cbn [hpkt p_proto] in M. subst proto. repeat (destruct I as [I|I]; [discriminate I|]). exact I. }
  assert (Deny : hf_outcome "deny" "deny") by (right; left; auto).
  split; [|split; [|split; [|split]]].
  - apply (D Ingress V4); [apply Tr; cbn; try lia; tauto|]. eexists [], _, _. split; [reflexivity|]. cbn [fst snd plain_hf h_term]. split; [|intros y a []]. split; [cbn; intuition discriminate|]. split; [left; cbn; tauto|].
    split; [|exists "accept", []; split; [reflexivity|left; auto]]. apply (quiet_matches "gcp_hf"); [apply hf_quiet; cbn; tauto|reflexivity|].
    split; [split; [right; exists (v4 10 0 0 0 8); split; [left; reflexivity|vm_compute; intuition congruence]|intros (n & [] & _)]|]. split; [split; [left; reflexivity|intros (n & [] & _)]|].
    split; [right; exists "gre"; split; [right; left; reflexivity|reflexivity]|]. split; [left; reflexivity|]. split; [right; exists (8000, 8100); split; [right; left; reflexivity|vm_compute; intuition congruence]|]. split; [intros o []|left; reflexivity].
  - apply (D Ingress V4); [apply Tr; cbn; try lia; tauto|]. eexists [_; _], _, _. split; [reflexivity|]. cbn [fst snd plain_hf h_term]. split.
    + split; [cbn; intuition discriminate|]. split; [left; cbn; tauto|]. split; [apply Rest|]. exists "deny", []. split; [reflexivity|exact Deny].
    + intros y a [<-|[<-|[]]] (_ & _ & M & _); cbn [fst snd plain_hf h_term] in M; [apply Web in M; lia|apply Ping in M; [destruct M|cbn; tauto]].
  - apply (D Ingress V6); [apply Tr; cbn; try lia; tauto|]. eexists [_; _], _, _. split; [reflexivity|]. cbn [fst snd plain_hf h_term]. split.
    + split; [cbn; intuition discriminate|]. split; [left; cbn; tauto|]. split; [apply Rest|]. exists "deny", []. split; [reflexivity|exact Deny].
    + intros y a [<-|[<-|[]]] (_ & _ & M & _); cbn [fst snd plain_hf h_term] in M; [apply Web in M; lia|apply Ping in M; [destruct M|cbn; tauto]].
  - apply (D Egress V4); [apply Tr; cbn; try lia; tauto|]. eexists [_; _; _], _, _. split; [reflexivity|]. cbn [fst snd plain_hf h_term]. split.
    + split; [cbn; tauto|]. split; [right; cbn; intuition discriminate|]. split; [apply Rest|]. exists "deny", []. split; [reflexivity|exact Deny].
    + intros y a [<-|[<-|[<-|[]]]] (W & _); cbn in W; intuition discriminate.
  - intros X. apply (D Egress V6) in X; [|apply Tr; cbn; try lia; tauto]. destruct X as (l1 & y & l2 & Ey & (W & H & _) & _).
    assert (I : In (fst y) (map fst (all_terms hfs))) by (apply in_map; rewrite Ey; apply in_app_iff; right; left; reflexivity).
    change (map fst (all_terms hfs)) with [["corp"; "mixed"; "500"]; ["corp"; "mixed"; "500"]; ["corp"; "mixed"; "500"]; ["corp"; "EGRESS"; "beta"; "500"]] in I.
    clear - I W H. destruct I as [I|[I|[I|[I|[]]]]]; rewrite <- I in W, H; cbn in W; try (repeat (destruct W as [W|W]; [discriminate W|]); exact W).
    destruct H as [H|H]; cbn in H; repeat (destruct H as [H|H]; [discriminate H|]); exact H.
Qed.

(** *** Policies whose rules say something else *)
(** The destination of a term for incoming traffic is dropped. *)
Definition hfar : term := Eval vm_compute in set_destination_address [v4 10 0 0 1 32] (accept "far").
Theorem C81_far_address_refuted : exists t policy rules p, hf_policy hafs hapis [(["corp"], [plain_hf t])] = Ok [policy] /\ rules_of policy rules /\ hf_traffic V4 p /\ ~ term_matches t p /\ hf_decides Ingress rules p "allow".
Proof.
  exists hfar. eexists. eexists. exists (hpkt V4 5 1 "udp" 443). split; [vm_compute; reflexivity|]. split; [reflexivity|]. split; [apply hf_plain_traffic; exists 5, 1, "udp", 443; split; [reflexivity|]; cbn; lia || (cbn; split; [lia|split; [lia|tauto]])|]. split.
  - intros ((_ & _ & [X|(n & [<-|[]] & C)] & _) & _); [discriminate X|]. vm_compute in C. intuition congruence.
  - eexists. exists 1. split; [left; reflexivity|]. split; [|split; [reflexivity|]].
    + split; [|reflexivity]. split; [reflexivity|]. split; [reflexivity|]. eexists _, _, _. split; [right; split; reflexivity|]. split; [|split; [exact Logic.I|split; [reflexivity|split; [left; reflexivity|apply all_says]]]].
      eexists _, (prefixlen_text (any_ip V4)). split; [reflexivity|]. split; [left; reflexivity|]. apply range_text; [apply (Forall_inv (GceDecide.any_valid [V4]))|split; [vm_compute; discriminate|vm_compute; reflexivity]|]. vm_compute. intuition congruence.
    + intros r' o' n' [<-|[]] (_ & A) _ _. vm_compute in A. congruence.
Qed.
Print Assumptions C81_far_address_refuted.

(** Nothing is written for a term with the protocol ipip, which the platform knows. *)
Definition hipip : term := Eval vm_compute in set_protocol ["ipip"] (accept "tunnel").
Theorem C81_ipip_refuted : exists t, In "ipip" gce_names /\ t_protocol t = ["ipip"] /\ hf_policy hafs hapis [(["corp"], [plain_hf t])] = Raise (Exn "KeyError").
Proof. exists hipip. split; [apply str_in_spec; reflexivity|]. split; [reflexivity|]. vm_compute. reflexivity. Qed.
Print Assumptions C81_ipip_refuted.

(** A term with a threat list and icmpv6 is dropped from a mixed policy without a message. *)
Definition hthreat : term := Eval vm_compute in set_source_prefix ["iplist-tor-exit-nodes"] (set_protocol ["icmpv6"] (set_action ["deny"] (blank "tor"))).
Theorem C81_threat_list_dropped_refuted : exists t policy, t_action t = ["deny"] /\ hf_policy hafs hapis [(["corp"; "mixed"], [plain_hf t])] = Ok [policy] /\ rules_of policy [].
Proof. exists hthreat. eexists. split; [reflexivity|]. split; [vm_compute; reflexivity|reflexivity]. Qed.
Print Assumptions C81_threat_list_dropped_refuted.

(** Threat lists are not counted under the older interface. *)
Definition hlisted : term := Eval vm_compute in set_source_prefix ["iplist-tor-exit-nodes"; "iplist-public-clouds"] (set_action ["deny"] (blank "tor")).
Theorem C81_beta_cost_refuted : exists options t policy r n, hf_policy hafs hapis [(options, [plain_hf t])] = Ok [policy] /\ rules_of policy [r] /\ limit_of options n /\ charge r (n + 2).
Proof.
  exists ["corp"; "beta"; "1"], hlisted. eexists. eexists. exists 1. split; [vm_compute; reflexivity|]. split; [reflexivity|]. split.
  - left. exists ["corp"; "beta"], "1", []. split; [reflexivity|]. split; [reflexivity|]. intros x [<-|[<-|[]]]; reflexivity.
  - eexists. eexists. split; [left; split; reflexivity|]. split; reflexivity.
Qed.
Print Assumptions C81_beta_cost_refuted.

(** Headers of one policy may give different names when they use different interfaces. *)
Theorem C81_one_name_refuted : exists policy, hf_policy hafs hapis [(["corp"], [plain_hf hrest]); (["other"; "beta"], [plain_hf hrest])] = Ok [policy] /\
  path ["shortName"] policy = Some (JStr "corp") /\ path ["displayName"] policy = Some (JStr "other").
Proof. eexists. split; [vm_compute; reflexivity|]. split; reflexivity. Qed.
Print Assumptions C81_one_name_refuted.

(** When a header names two families the order in which Python walks a frozen set decides. *)
Theorem C81_two_families_refuted : exists fs afs afs', Permutation afs family_words /\ Permutation afs' family_words /\
  exists policy policy', hf_policy afs hapis fs = Ok [policy] /\ hf_policy afs' hapis fs = Ok [policy'] /\ policy <> policy'.
Proof.
  exists [(["corp"; "inet"; "inet6"], [plain_hf hrest])], ["inet"; "inet6"; "mixed"], ["inet6"; "inet"; "mixed"]. split; [apply Permutation_refl|]. split; [apply perm_swap|].
  eexists. eexists. split; [vm_compute; reflexivity|]. split; [vm_compute; reflexivity|]. intros X. apply (f_equal (fun j => match path ["rules"] j with Some (JList (r :: _)) => path ["match"; "srcIpRanges"] r | _ => None end)) in X. vm_compute in X. discriminate X.
Qed.
Print Assumptions C81_two_families_refuted.
