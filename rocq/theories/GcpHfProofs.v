(** Proofs about the generator of hierarchical firewall policies. *)
From Coq Require Import Lia ZifyBool ZifyNat Permutation.
From Verif Require Import SpecGcpHf BaseFacts PyStrFacts IPFacts CollapseProofs ExcludeProofs PolicyProofs GenProofs GenProofs2 TextProofs IptText IptPart CiscoProofs CiscoProofs2 CiscoAcl GceProofs GceRules GceDecide CiscoGroupAcl QuietTerm OpenConfigProofs CloudArmorProofs K8sProofs PortNameProofs.
Local Open Scope string_scope.
Local Open Scope list_scope.
Local Open Scope Z_scope.

(** ** One rule *)
Definition range_key (out : bool) : string := if out then "destIpRanges" else "srcIpRanges".
Definition threat_key (out : bool) : string := if out then "destThreatIntelligences" else "srcThreatIntelligences".
Definition hf_shape (out : bool) (ranges : list (string * json)) : Prop :=
  ranges = [] \/ exists c, ranges = [(range_key out, jstrings (map prefixlen_text c))] /\ (List.length c <= 256)%nat.
Definition hf_conf (ga : bool) (l4 : list json) (out : bool) (threats : list string) (ranges : list (string * json)) : json :=
  JDict (("layer4Configs", JList l4) :: (if ga then (if some threats then [(threat_key out, jstrings threats)] else []) else []) ++ ranges).
Lemma hf_conditions d m h a n ga l4 out th ranges c : hf_shape out ranges ->
  conditions (hf_rule d m h a n (hf_match ga l4 (threat_key out) th ranges)) c <-> c = hf_conf ga l4 out th ranges.
Proof.
  intros S. unfold conditions, hf_rule, hf_match, hf_conf.
  assert (P : path ["match"; "config"] (JDict (("layer4Configs", JList l4) :: (if some th then [(threat_key out, jstrings th)] else []) ++ ranges)) = None ).
  { destruct S as [->|(x & -> & _)]; destruct (some th), out; reflexivity. }
  assert (Q : assoc "config" (("layer4Configs", JList l4) :: (if some th then [(threat_key out, jstrings th)] else []) ++ ranges) = None).
  { destruct S as [->|(x & -> & _)]; destruct (some th), out; reflexivity. }
  destruct (some (h_targets h)), ga; cbn -[assoc]; cbn [assoc String.eqb Ascii.eqb Bool.eqb] in *; rewrite ?Q; split.
  all: try (intros ->; first [left; split; reflexivity|right; split; reflexivity]).
  all: intros [[A B]|[A B]]; try discriminate A; congruence.
Qed.
Lemma hf_paths d m h a n c : let r := hf_rule d m h a n c in
  path ["direction"] r = Some (JStr d) /\ path ["priority"] r = Some (JNum n) /\ path ["action"] r = Some (JStr (hf_action a)) /\
  path ["targetResources"] r = (if some (h_targets h) then Some (jstrings (map target_text (h_targets h))) else None) /\
  exists s, path ["description"] r = Some (JStr (slice_to s 64)).
Proof. cbv zeta. unfold hf_rule. destruct (some (h_targets h)); repeat split; eexists; reflexivity. Qed.
Lemma conf_paths ga l4 out th ranges : hf_shape out ranges -> let c := hf_conf ga l4 out th ranges in
  path ["layer4Configs"] c = Some (JList l4) /\ path [range_key (negb out)] c = None /\ path [threat_key (negb out)] c = None /\
  path [range_key out] c = assoc (range_key out) ranges /\ path [threat_key out] c = (if ga then if some th then Some (jstrings th) else None else None).
Proof. intros S. cbv zeta. unfold hf_conf. destruct S as [->|(x & -> & _)]; destruct ga, (some th), out; repeat split; reflexivity. Qed.

(** ** Chunks *)
Lemma hf_chunks_nth rule key : forall cs n i r, nth_error (hf_chunks rule key n cs) i = Some r ->
  exists c, nth_error cs i = Some c /\ r = rule (n + Z.of_nat i) [(key, jstrings (map prefixlen_text c))].
Proof.
  induction cs as [|c cs IH]; intros n [|i] r H; try discriminate H.
  - cbn [hf_chunks nth_error] in H. exists c. split; [reflexivity|]. rewrite Z.add_0_r. congruence.
  - cbn [hf_chunks nth_error] in H. destruct (IH _ _ _ H) as (c' & E & ->). exists c'. split; [exact E|]. f_equal. lia.
Qed.
Lemma hf_chunks_in rule key : forall cs n c, In c cs -> exists k, In (rule k [(key, jstrings (map prefixlen_text c))]) (hf_chunks rule key n cs).
Proof.
  induction cs as [|c0 cs IH]; intros n c I; [destruct I|]. cbn [hf_chunks]. destruct I as [->|I]; [exists n; left; reflexivity|].
  destruct (IH (n + 1) c I) as (k & K). exists k. right. exact K.
Qed.

(** ** Protocols *)
Lemma hf_protocols always names ps : term_protocols always names = Ok ps ->
  Forall2 (fun q p => (p = PName q /\ ~ In q always) \/ (In q always /\ exists n, p = PNum n)) names ps.
Proof.
  unfold term_protocols. destruct names as [|n0 ns]; cbn [some]; [intros E; apply ok_inj in E; subst; constructor|]. destruct (forallb _ _); [|discriminate].
  generalize (n0 :: ns). intros l E. apply mapM_forall2 in E. induction E as [|q p l ps E F IH]; constructor; [|exact IH].
  destruct (str_in q always) eqn:X.
  - apply str_in_spec in X. destruct (assoc q proto_map); [|discriminate E]. apply ok_inj in E. subst p. right. eauto.
  - apply ok_inj in E. subst p. left. split; [reflexivity|]. intros I. apply str_in_spec in I. congruence.
Qed.
Definition proto_text (s : string) : string := if str_in s gce_names then s else match assoc s proto_map with Some n => dec n | None => "" end.
Definition entry_of (ports : list prange) (s : string) : json :=
  JDict (("ipProtocol", JStr (proto_text s)) :: if some ports then [("ports", JList (map gce_port ports))] else []).
Lemma hf_entries_spec ports : forall ps l, hf_entries ports ps = Ok l -> exists names, ps = map PName names /\ l = map (entry_of ports) names.
Proof.
  induction ps as [|p ps IH]; intros l E; cbn [hf_entries] in E; [apply ok_inj in E; subst; exists []; auto|].
  destruct (hf_entry ports p) as [e|] eqn:Ee; [|discriminate E]. cbn [bind] in E. destruct (hf_entries ports ps) as [more|] eqn:Em; [|discriminate E]. cbn [bind] in E. apply ok_inj in E. subst l.
  destruct (IH _ eq_refl) as (names & -> & ->). destruct p as [s|k]; [|discriminate Ee]. exists (s :: names). split; [reflexivity|]. cbn [map]. f_equal.
  unfold hf_entry in Ee. unfold entry_of, proto_text. destruct (str_in s gce_names); cbn [bind] in Ee; [apply ok_inj in Ee; auto|].
  destruct (assoc s proto_map); [|discriminate Ee]. cbn [bind] in Ee. apply ok_inj in Ee. auto.
Qed.
Lemma proto_text_says s q : In s (map fst proto_map) -> s <> "all" -> In q (map fst proto_map) -> q <> "all" ->
  (proto_text s = "all" \/ proto_text s = q \/ exists n, numeral_value (proto_text s) = Some n /\ In (q, n) proto_map) <-> q = s.
Proof.
  intros Is Ns Iq Nq. set (t := filter (fun x => negb (String.eqb (fst x) "all")) proto_map).
  assert (C : forallb (fun x => forallb (fun y => Bool.eqb (String.eqb (proto_text (fst x)) "all" || String.eqb (proto_text (fst x)) (fst y)
     || match numeral_value (proto_text (fst x)) with Some n => n =? snd y | None => false end) (String.eqb (fst x) (fst y))) t) t = true) by (vm_compute; reflexivity).
  rewrite forallb_forall in C.
  assert (T : forall x, In x proto_map -> fst x <> "all" -> In x t) by (intros x I N; apply filter_In; split; [exact I|]; apply negb_true_iff, String.eqb_neq, N).
  apply in_map_iff in Is, Iq. destruct Is as (x & <- & Is), Iq as (y & <- & Iq). specialize (C x (T x Is Ns)). cbv beta in C. rewrite forallb_forall in C.
  split.
  - intros [H|[H|(n & H & I)]].
    + specialize (C y (T y Iq Nq)). cbv beta in C. rewrite H in C. cbn in C. symmetry. apply String.eqb_eq. destruct (String.eqb (fst x) (fst y)); [reflexivity|discriminate C].
    + specialize (C y (T y Iq Nq)). cbv beta in C. rewrite H, (String.eqb_refl (fst y)), orb_true_r in C. cbn in C. symmetry. apply String.eqb_eq. destruct (String.eqb (fst x) (fst y)); [reflexivity|discriminate C].
    + specialize (C _ (T _ I Nq)). cbn [fst snd] in C. rewrite H, Z.eqb_refl, orb_true_r in C. symmetry. apply String.eqb_eq. destruct (String.eqb (fst x) (fst y)); [reflexivity|discriminate C].
  - intros E. specialize (C y (T y Iq Nq)). cbv beta in C. rewrite E, String.eqb_refl in C. apply Bool.eqb_prop in C. apply orb_true_iff in C. destruct C as [C|C].
    + apply orb_true_iff in C. destruct C as [C|C]; apply String.eqb_eq in C; [left; exact C|right; left; congruence].
    + right. right. destruct (numeral_value (proto_text (fst x))) as [n|]; [|discriminate C]. exists n. split; [reflexivity|]. apply Z.eqb_eq in C. subst n. rewrite <- surjective_pairing. exact Iq.
Qed.
Lemma entry_says ports s p : In s (map fst proto_map) -> s <> "all" -> In (p_proto p) (map fst proto_map) -> p_proto p <> "all" ->
  (forall r, In r ports -> 0 <= fst r <= snd r) ->
  layer4_says p (entry_of ports s) <-> p_proto p = s /\ ports_match ports (p_dport p).
Proof.
  intros Is Ns Iq Nq K. unfold layer4_says, entry_of.
  assert (A : (exists x, path ["ipProtocol"] (JDict (("ipProtocol", JStr (proto_text s)) :: (if some ports then [("ports", JList (map gce_port ports))] else []))) = Some (JStr x) /\
    (x = "all" \/ x = p_proto p \/ exists n, numeral_value x = Some n /\ In (p_proto p, n) proto_map)) <-> p_proto p = s).
  { rewrite <- (proto_text_says s (p_proto p) Is Ns Iq Nq). cbn [path assoc String.eqb Ascii.eqb Bool.eqb]. split; [intros (x & E & H)|intros H; eauto]. assert (x = proto_text s) by congruence. subst x. exact H. }
  rewrite A. apply and_iff_compat_l. clear A. destruct ports as [|r0 rs].
  - cbn [some path assoc String.eqb Ascii.eqb Bool.eqb if_given]. split; [left; reflexivity|intros _; exact Logic.I].
  - cbn [some]. remember (r0 :: rs) as ports eqn:Eq. assert (E : ports <> []) by (subst ports; discriminate). clear Eq. cbn [path assoc String.eqb Ascii.eqb Bool.eqb if_given].
    pose proof (gce_ports_say (set_destination_port ports (blank "x")) p K E) as G. change (t_destination_port (set_destination_port ports (blank "x"))) with ports in G.
    unfold ports_match. split.
    + intros (l & x & X & I & R). assert (l = map gce_port ports) by congruence. subst l. right. apply G. eauto.
    + intros [H|H]; [contradiction|]. apply G in H. destruct H as (x & I & R). eauto 6.
Qed.
Lemma all_says p : layer4_says p (JDict [("ipProtocol", JStr "all")]).
Proof. split; [exists "all"; split; [reflexivity|left; reflexivity]|exact Logic.I]. Qed.

(** ** The rules of a term for a family *)
Definition hf_near (out : bool) (t : term) : list net := if out then t_destination_address t else t_source_address t.
Definition hf_threats (out : bool) (t : term) : list string := if out then t_destination_prefix t else t_source_prefix t.
Definition kept (v : ver) (ps : list pval) : list pval := filter (fun p => negb (hf_left_out v p)) ps.
Definition hf_layer4 (v : ver) (t : term) (ps : list pval) (l4 : list json) : Prop :=
  (ps = [] /\ l4 = [JDict [("ipProtocol", JStr "all")]]) \/
  (ps <> [] /\ exists names, kept v ps = map PName names /\ names <> [] /\ l4 = map (entry_of (t_destination_port t)) names).
Lemma hf_rules_shape d ga v m h n rules : hf_rules d ga v m h n = Ok rules ->
  let t := h_term h in let out := String.eqb d "EGRESS" in
  hf_validate h = Ok tt /\ exists a rest ps, t_action t = a :: rest /\ term_protocols ["ipip"] (t_protocol t) = Ok ps /\
  let rule := fun l4 n ranges => hf_rule d m h a n (hf_match ga l4 (threat_key out) (hf_threats out t) ranges) in
  ((rules = [] /\ ((ps <> [] /\ kept v ps = []) \/ (hf_near out t <> [] /\ gce_addresses v (hf_near out t) = []) \/ hf_threats out t <> [])) \/
   exists l4, hf_layer4 v t ps l4 /\
     ((hf_near out t = [] /\ hf_threats out t <> [] /\ rules = [rule l4 n []]) \/
      exists addrs, ((hf_near out t = [] /\ addrs = [any_ip v]) \/ (addrs = gce_addresses v (hf_near out t) /\ hf_near out t <> [])) /\
        rules = hf_chunks (rule l4) (range_key out) n (chunks (List.length addrs) 256 addrs))).
Proof.
  intros E. cbv zeta. unfold hf_rules in E. cbv zeta in E. destruct (term_protocols _ _) as [ps|] eqn:Ep; [|discriminate E]. cbn [bind] in E.
  destruct (hf_validate h) as [[]|] eqn:Ev; [|discriminate E]. cbn [bind] in E. split; [reflexivity|]. destruct (t_action (h_term h)) as [|a rest]; [discriminate E|].
  exists a, rest, ps. split; [reflexivity|]. split; [reflexivity|]. fold (kept v ps) in E.
  fold (hf_near (String.eqb d "EGRESS") (h_term h)) in E. fold (hf_threats (String.eqb d "EGRESS") (h_term h)) in E. fold (threat_key (String.eqb d "EGRESS")) in E. fold (range_key (String.eqb d "EGRESS")) in E.
  set (near := hf_near _ _) in *. set (threats := hf_threats _ _) in *.
  destruct (some ps && negb (some (kept v ps))) eqn:E1.
  { apply ok_inj in E. apply andb_true_iff in E1. destruct E1 as [E1 E2]. apply some_true in E1. apply negb_true_iff, some_false in E2. left. split; [auto|]. left. auto. }
  destruct (if some ps then _ else _) as [l4|] eqn:E4; [|discriminate E]. cbn [bind] in E.
  assert (L : hf_layer4 v (h_term h) ps l4).
  { destruct (some ps) eqn:Es; [|apply some_false in Es; apply ok_inj in E4; left; auto]. apply some_true in Es. right. split; [exact Es|].
    cbn [andb] in E1. apply negb_false_iff, some_true in E1. destruct (hf_entries_spec _ _ _ E4) as (names & En & ->). exists names. split; [exact En|]. split; [|reflexivity]. intros ->. rewrite En in E1. contradiction E1. reflexivity. }
  destruct (some near && negb (some (gce_addresses v near))) eqn:E2.
  { apply ok_inj in E. apply andb_true_iff in E2. destruct E2 as [E2 E3]. apply some_true in E2. apply negb_true_iff, some_false in E3. left. split; [auto|]. right. left. auto. }
  destruct (negb (some (gce_addresses v near)) && some threats) eqn:E3.
  { apply andb_true_iff in E3. destruct E3 as [E3 E5]. apply some_true in E5. destruct m; apply ok_inj in E; [left; auto|]. right. exists l4. split; [exact L|]. left.
    apply negb_true_iff in E3. rewrite E3 in E2. cbn [negb] in E2. rewrite andb_true_r in E2. apply some_false in E2. auto. }
  apply ok_inj in E. right. exists l4. split; [exact L|]. right. destruct (some (gce_addresses v near)) eqn:E5.
  - exists (gce_addresses v near). split; [right; split; [reflexivity|]|auto]. intros X. rewrite X in E5. destruct v; discriminate E5.
  - cbn [negb] in E2. rewrite andb_true_r in E2. apply some_false in E2. exists [any_ip v]. split; [left; auto|auto].
Qed.
(** Every rule, with its number *)
Lemma hf_rules_nth d ga v m h n rules : hf_rules d ga v m h n = Ok rules -> let out := String.eqb d "EGRESS" in
  forall i r, nth_error rules i = Some r -> exists a rest ps l4 ranges, t_action (h_term h) = a :: rest /\ hf_layer4 v (h_term h) ps l4 /\ hf_validate h = Ok tt /\
    r = hf_rule d m h a (n + Z.of_nat i) (hf_match ga l4 (threat_key out) (hf_threats out (h_term h)) ranges) /\ hf_shape out ranges.
Proof.
  intros E. cbv zeta. intros i r H. destruct (hf_rules_shape _ _ _ _ _ _ _ E) as (V & a & rest & ps & A & _ & S). cbv zeta in S.
  destruct S as [(-> & _)|(l4 & L & S)]; [destruct i; discriminate H|]. exists a, rest, ps, l4. destruct S as [(_ & _ & ->)|(addrs & _ & ->)].
  - destruct i as [|[|i]]; [|discriminate H|discriminate H]. cbn in H. assert (Er := eq_sym (f_equal (fun o => match o with Some x => x | None => r end) H)). cbv beta iota in Er.
    exists []. rewrite Z.add_0_r. split; [exact A|]. split; [exact L|]. split; [exact V|]. split; [exact Er|left; reflexivity].
  - destruct (hf_chunks_nth _ _ _ _ _ _ H) as (c & Nc & ->). eexists. split; [exact A|]. split; [exact L|]. split; [exact V|]. split; [reflexivity|]. right. exists c. split; [reflexivity|].
    exact (chunks_length _ _ _ _ (nth_error_In _ _ Nc)).
Qed.
Lemma hf_rules_numbers d ga v m h n rules : hf_rules d ga v m h n = Ok rules -> ca_numbers n rules.
Proof. intros E i r H. destruct (hf_rules_nth _ _ _ _ _ _ _ E i r H) as (a & rest & ps & l4 & ranges & _ & _ & _ & -> & _). apply hf_paths. Qed.
Lemma hf_word_out w : String.eqb (hf_word w) "EGRESS" = match w with Egress => true | Ingress => false end.
Proof. destruct w; reflexivity. Qed.
Lemma hf_rules_way w w' ga v m h n rules r p o : hf_rules (hf_word w') ga v m h n = Ok rules -> In r rules -> hf_says w r p o -> w = w'.
Proof.
  intros E I ((D & _) & _). apply In_nth_error in I. destruct I as (i & I). destruct (hf_rules_nth _ _ _ _ _ _ _ E i r I) as (a & rest & ps & l4 & ranges & _ & _ & _ & -> & _).
  destruct (hf_paths (hf_word w') m h a (n + Z.of_nat i) (hf_match ga l4 (threat_key (String.eqb (hf_word w') "EGRESS")) (hf_threats (String.eqb (hf_word w') "EGRESS") (h_term h)) ranges)) as (P & _). rewrite P in D. destruct w, w'; try reflexivity; discriminate D.
Qed.
Record hf_fit (w : way) (h : hf_term) : Prop := {
  hx_addresses : valid_list (fst (near_side w (h_term h)));
  hx_style : forall n, In n (fst (near_side w (h_term h))) -> nver n = V6 -> ~ ipv4_style (naddr n);
  hx_targets : h_targets h = [];
  hx_prefix : t_source_prefix (h_term h) = [] /\ t_destination_prefix (h_term h) = [];
  hx_protocol : forall q, In q (t_protocol (h_term h)) -> In q (map fst proto_map) /\ q <> "all";
  hx_ports : (t_destination_port (h_term h) <> [] -> t_protocol (h_term h) <> []) /\ forall r, In r (t_destination_port (h_term h)) -> 0 <= fst r <= snd r }.
Definition hf_hit (w : way) (h : hf_term) (p : packet) : Prop :=
  (fst (near_side w (h_term h)) = [] \/ covered (fst (near_side w (h_term h))) (peer_of w p)) /\
  any_or (t_protocol (h_term h)) (eq (p_proto p)) /\ ports_match (t_destination_port (h_term h)) (p_dport p).
Lemma near_eq w t : hf_near (String.eqb (hf_word w) "EGRESS") t = fst (near_side w t).
Proof. destruct w; reflexivity. Qed.
Lemma rule_says w m h a n ga l4 c p o : let out := String.eqb (hf_word w) "EGRESS" in
  h_targets h = [] -> (List.length c <= 256)%nat -> valid_list c -> addressable (p_src p) -> addressable (p_dst p) ->
  hf_says w (hf_rule (hf_word w) m h a n (hf_match ga l4 (threat_key out) [] [(range_key out, jstrings (map prefixlen_text c))])) p o <->
  o = hf_action a /\ covered c (peer_of w p) /\ exists e, In e l4 /\ layer4_says p e.
Proof.
  cbv zeta. intros T Lc V As Ad. set (out := String.eqb (hf_word w) "EGRESS"). set (ranges := [(range_key out, jstrings (map prefixlen_text c))]).
  assert (S : hf_shape out ranges) by (right; exists c; auto). unfold hf_says, hf_matches.
  destruct (hf_paths (hf_word w) m h a n (hf_match ga l4 (threat_key out) [] ranges)) as (P1 & _ & P3 & P4 & _). rewrite P1, P3, P4, T. cbn [some].
  pose proof (conf_paths ga l4 out [] ranges S) as Cp. cbv zeta in Cp. destruct Cp as (C1 & C2 & _ & C4 & _).
  assert (R : ranges_say (path ["srcIpRanges"] (hf_conf ga l4 out [] ranges)) (p_src p) /\ ranges_say (path ["destIpRanges"] (hf_conf ga l4 out [] ranges)) (p_dst p) <-> covered c (peer_of w p)).
  { assert (G : forall x, on_net x -> ranges_say (Some (jstrings (map prefixlen_text c))) x <-> covered c x).
    { intros x Ax. unfold ranges_say, jstrings. cbn [if_given]. split.
      - intros (l & s & E & I & H). assert (l = map JStr (map prefixlen_text c)) by congruence. subst l. apply in_map_iff in I. destruct I as (s' & E' & I). assert (s' = s) by congruence. subst s'.
        apply in_map_iff in I. destruct I as (k & <- & I). exists k. split; [exact I|]. apply range_text; auto. exact (proj1 (Forall_forall _ _) V k I).
      - intros (k & I & H). eexists. exists (prefixlen_text k). split; [reflexivity|]. split; [apply in_map, in_map, I|]. apply range_text; auto. exact (proj1 (Forall_forall _ _) V k I). }
    assert (C4' : path [range_key out] (hf_conf ga l4 out [] ranges) = Some (jstrings (map prefixlen_text c))).
    { rewrite C4. unfold ranges. cbn [assoc]. rewrite String.eqb_refl. reflexivity. }
    subst out. clear C1 C4 P1 P3 P4. destruct w; cbn [hf_word String.eqb Ascii.eqb Bool.eqb range_key negb peer_of] in *; rewrite C2, C4', G by assumption; unfold ranges_say; cbn [if_given]; tauto. }
  split.
  - intros ((_ & _ & x & l & e & Cx & R1 & R2 & L & Ie & Le) & A). apply (hf_conditions _ _ _ _ _ _ _ _ _ _ _ S) in Cx. subst x. rewrite C1 in L. assert (l = l4) by congruence. subst l.
    split; [congruence|]. split; [apply R; auto|eauto].
  - intros (-> & Cc & e & Ie & Le). split; [|reflexivity]. split; [reflexivity|]. split; [reflexivity|]. exists (hf_conf ga l4 out [] ranges), l4, e.
    split; [apply hf_conditions; auto|]. apply R in Cc. destruct Cc. auto 10.
Qed.
Lemma kept_names v ps names q : Forall2 (fun q p => (p = PName q /\ ~ In q ["ipip"]) \/ (In q ["ipip"] /\ exists n, p = PNum n)) q ps ->
  kept v ps = map PName names -> forall s, In s names <-> In s q /\ ~ In s (foreign v).
Proof.
  intros F K s.
  assert (A : In s names <-> In (PName s) (kept v ps)).
  { rewrite K. split; [apply in_map|]. intros I. apply in_map_iff in I. destruct I as (x & E & I). congruence. }
  rewrite A. unfold kept. rewrite filter_In.
  assert (L : negb (hf_left_out v (PName s)) = true <-> ~ In s (foreign v)).
  { rewrite negb_true_iff. destruct v; cbn [hf_left_out foreign In].
    - destruct (String.eqb_spec s "icmpv6"); split; intros X; try discriminate X; try reflexivity; try (intros [Y|[]]; congruence). exfalso. apply X. auto.
    - destruct (String.eqb_spec s "icmp"); [|destruct (String.eqb_spec s "igmp")]; cbn [orb]; split; intros X; try discriminate X; try reflexivity; try (intros [Y|[Y|[]]]; congruence); exfalso; apply X; auto. }
  rewrite L. assert (B : In (PName s) ps -> In s q).
  { intros I. destruct (IptRule.Forall2_in_r _ _ _ _ F I) as (x & Ix & [(E & _)|(_ & n & E)]); congruence. }
  split; [tauto|]. intros [I Nf]. split; [|exact Nf]. destruct (IptRule.Forall2_in_l _ _ _ _ F I) as (y & Iy & [(-> & _)|(X & n & ->)]); [exact Iy|]. exfalso.
  assert (J : In (PNum n) (kept v ps)) by (apply filter_In; split; [exact Iy|reflexivity]). rewrite K in J. apply in_map_iff in J. destruct J as (z & Z & _). discriminate Z.
Qed.
Lemma hf_rules_says w w' ga v v' m h n rules p o : hf_rules (hf_word w') ga v' m h n = Ok rules -> hf_fit w' h -> hf_traffic v p ->
  (exists r, In r rules /\ hf_says w r p o) <-> w = w' /\ v = v' /\ hf_hit w h p /\ exists a rest, t_action (h_term h) = a :: rest /\ o = hf_action a.
Proof.
  intros E X T. destruct (hq_family _ _ T) as (F1 & F2 & A1 & A2). destruct (hq_proto _ _ T) as (Q1 & Q2 & Q3).
  destruct (hf_rules_shape _ _ _ _ _ _ _ E) as (V & a & rest & ps & Ac & Ep & S). cbv zeta in S. rewrite near_eq in S.
  assert (Th : hf_threats (String.eqb (hf_word w') "EGRESS") (h_term h) = []) by (unfold hf_threats; destruct (hx_prefix _ _ X); destruct (String.eqb _ _); assumption). rewrite Th in S.
  assert (Pf : fst (peer_of w' p) = v) by (destruct w'; assumption). assert (Pa : addressable (peer_of w' p)) by (destruct w'; assumption).
  pose proof (hf_protocols _ _ _ Ep) as Fp.
  assert (St : forall k, In k (fst (near_side w' (h_term h))) -> ipv4_format k = false).
  { intros k I. destruct (ipv4_format k) eqn:Ef; [|reflexivity]. exfalso.
    assert (Vk : valid k) by exact (proj1 (Forall_forall _ _) (hx_addresses _ _ X) k I). assert (N6 : nver k = V6) by (unfold ipv4_format in Ef; destruct (nver k); [discriminate Ef|reflexivity]).
    apply ipv4_format_style in Ef; auto. exact (hx_style _ _ X k I N6 Ef). }
  set (near := fst (near_side w' (h_term h))) in *.
  assert (Pn : peer_of w' p = (v, snd (peer_of w' p))) by (rewrite <- Pf; apply surjective_pairing).
  assert (Pe : ps = [] <-> t_protocol (h_term h) = []) by (inversion Fp; split; intros; congruence).
  destruct S as [(-> & S)|(l4 & L & S)].
  - split; [intros (r & [] & _)|]. intros (-> & -> & (H1 & H2 & H3) & _). exfalso. fold near in H1. destruct S as [(S1 & S2)|[(S1 & S2)|S1]]; [| |contradiction S1; reflexivity].
    + destruct H2 as [H2|(q & Iq & <-)]; [apply Pe in H2; contradiction|].
      assert (I : In (p_proto p) []) by (apply (kept_names v' ps [] _ Fp S2); auto). destruct I.
    + destruct H1 as [H1|H1]; [contradiction|]. rewrite Pn in H1. apply (gce_addresses_covered v' near _ St) in H1. rewrite S2 in H1. destruct H1 as (k & [] & _).
  - destruct S as [(_ & S & _)|(addrs & Sa & ->)]; [contradiction S; reflexivity|].
    assert (Va : valid_list addrs).
    { destruct Sa as [(_ & ->)|(-> & _)]; [apply (any_valid [v'])|apply gce_addresses_valid, (hx_addresses _ _ X)]. }
    assert (Cv : covered addrs (peer_of w' p) <-> v = v' /\ (near = [] \/ covered near (peer_of w' p))).
    { rewrite Pn. destruct Sa as [(N & ->)|(-> & N)].
      - split.
        + intros (k & [<-|[]] & [C _]). split; [destruct v'; exact (eq_sym C)|left; exact N].
        + intros (-> & _). exists (any_ip v'). split; [left; reflexivity|]. apply any_covers. unfold addressable in Pa. rewrite Pf in Pa. exact Pa.
      - split.
        + intros C. assert (v = v') by (destruct C as (k & I & [C _]); apply gce_addresses_in in I; cbn in C; destruct I as (_ & I & _); congruence). subst v'. split; [reflexivity|]. right. apply (gce_addresses_covered v near _ St) in C. exact C.
        + intros (-> & [C|C]); [contradiction|]. apply (gce_addresses_covered v' near _ St). exact C. }
    assert (Ly : v = v' -> ((exists e, In e l4 /\ layer4_says p e) <-> any_or (t_protocol (h_term h)) (eq (p_proto p)) /\ ports_match (t_destination_port (h_term h)) (p_dport p))).
    { intros <-. destruct (hx_ports _ _ X) as [X1 X2]. destruct L as [(L1 & ->)|(L1 & names & L2 & L3 & ->)].
      - apply Pe in L1. split; [intros _|intros _; eexists; split; [left; reflexivity|apply all_says]]. rewrite L1. split; [left; reflexivity|].
        left. destruct (t_destination_port (h_term h)); [reflexivity|]. exfalso. apply X1; [discriminate|exact L1].
      - pose proof (kept_names v ps names _ Fp L2) as Kn. split.
        + intros (e & I & Le). apply in_map_iff in I. destruct I as (s & <- & I). apply Kn in I. destruct I as [I _]. destruct (hx_protocol _ _ X s I). apply entry_says in Le; auto. destruct Le as [<- Le]. split; [right; exists (p_proto p); auto|exact Le].
        + intros ([H|(q & I & <-)] & Po); [apply Pe in H; contradiction|]. exists (entry_of (t_destination_port (h_term h)) (p_proto p)). destruct (hx_protocol _ _ X _ I). split; [apply in_map, Kn; auto|]. apply entry_says; auto. }
    assert (Rs : forall c k, In c (chunks (List.length addrs) 256 addrs) -> hf_says w' (hf_rule (hf_word w') m h a k (hf_match ga l4 (threat_key (String.eqb (hf_word w') "EGRESS")) [] [(range_key (String.eqb (hf_word w') "EGRESS"), jstrings (map prefixlen_text c))])) p o <->
      o = hf_action a /\ covered c (peer_of w' p) /\ exists e, In e l4 /\ layer4_says p e).
    { intros c k Ic. apply rule_says; auto; [exact (hx_targets _ _ X)|exact (chunks_length _ _ _ _ Ic)|]. apply Forall_forall. intros y Iy. apply (proj1 (Forall_forall _ _) Va).
      apply (chunks_in 256 addrs y); [lia|]. exists c. auto. }
    split.
    + intros (r & I & H).
      assert (w = w').
      { destruct H as ((D & _) & _). apply In_nth_error in I. destruct I as (i & I). destruct (hf_chunks_nth _ _ _ _ _ _ I) as (c & _ & ->).
        destruct (hf_paths (hf_word w') m h a (n + Z.of_nat i) (hf_match ga l4 (threat_key (String.eqb (hf_word w') "EGRESS")) [] [(range_key (String.eqb (hf_word w') "EGRESS"), jstrings (map prefixlen_text c))])) as (P & _). rewrite P in D. destruct w, w'; try reflexivity; discriminate D. }
      subst w'. apply In_nth_error in I. destruct I as (i & I). destruct (hf_chunks_nth _ _ _ _ _ _ I) as (c & Nc & ->). apply nth_error_In in Nc. apply Rs in H; [|exact Nc]. destruct H as (-> & C & H).
      assert (Ca : covered addrs (peer_of w p)) by (destruct C as (y & Iy & C); exists y; split; [apply (chunks_in 256 addrs y); [lia|]; eauto|exact C]).
      apply Cv in Ca. destruct Ca as [Ev Ca]. split; [reflexivity|]. split; [exact Ev|]. apply (Ly Ev) in H. split; [split; [exact Ca|exact H]|eauto].
    + intros (-> & Ev & (H1 & H2) & a' & rest' & Ea & ->). assert (a' = a) by congruence. subst a'.
      assert (Ca : covered addrs (peer_of w' p)) by (apply Cv; auto). destruct Ca as (y & Iy & C). apply (chunks_in 256 addrs y) in Iy; [|lia]. destruct Iy as (c & Ic & Iy).
      destruct (hf_chunks_in (fun n ranges => hf_rule (hf_word w') m h a n (hf_match ga l4 (threat_key (String.eqb (hf_word w') "EGRESS")) [] ranges)) (range_key (String.eqb (hf_word w') "EGRESS")) _ n c Ic) as (k & Ik).
      eexists. split; [exact Ik|]. apply Rs; [exact Ic|]. split; [reflexivity|]. split; [exists y; auto|apply (Ly Ev), H2].
Qed.
