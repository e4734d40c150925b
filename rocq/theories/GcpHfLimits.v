(** Proofs about the generator of hierarchical firewall policies: the limits of the cloud. *)
From Coq Require Import Lia ZifyBool ZifyNat Permutation.
From Verif Require Import SpecGcpHf BaseFacts PyStrFacts IPFacts CollapseProofs ExcludeProofs PolicyProofs GenProofs GenProofs2 TextProofs CiscoProofs CiscoAcl GceProofs GceRules CloudArmorProofs K8sProofs GcpHfProofs GcpHfPolicy.
Local Open Scope string_scope.
Local Open Scope list_scope.
Local Open Scope Z_scope.

(** ** One rule *)
Lemma layer4_ports v t ps l4 e : hf_layer4 v t ps l4 -> In e l4 -> (exists x, path ["ipProtocol"] e = Some x) /\
  forall l, path ["ports"] e = Some (JList l) -> l = map gce_port (t_destination_port t).
Proof.
  intros [(_ & ->)|(_ & names & _ & _ & ->)] I.
  - destruct I as [<-|[]]. split; [eexists; reflexivity|]. intros l H. discriminate H.
  - apply in_map_iff in I. destruct I as (s & <- & _). unfold entry_of. split; [eexists; reflexivity|]. destruct (t_destination_port t) as [|r rs]; cbn [some]; intros l H; [discriminate H|].
    cbn [path assoc String.eqb Ascii.eqb Bool.eqb] in H. congruence.
Qed.
Lemma hf_rule_within d m h a k ga v ps l4 ranges : let out := String.eqb d "EGRESS" in
  hf_layer4 v (h_term h) ps l4 -> hf_validate h = Ok tt -> hf_shape out ranges ->
  hf_within (hf_rule d m h a k (hf_match ga l4 (threat_key out) (hf_threats out (h_term h)) ranges)).
Proof.
  cbv zeta. intros L V S. set (out := String.eqb d "EGRESS") in *. set (th := hf_threats out (h_term h)).
  assert (V1 : (List.length (h_targets h) <= 256)%nat /\ (List.length (t_destination_port (h_term h)) <= 256)%nat).
  { unfold hf_validate in V. cbv zeta in V. destruct (some _ || some _); [discriminate V|]. destruct (256 <? List.length (h_targets h))%nat eqn:A; [discriminate V|]. destruct (negb _); [discriminate V|]. destruct (some _); [discriminate V|]. destruct (some _); [discriminate V|].
    destruct (256 <? List.length (t_destination_port (h_term h)))%nat eqn:B; [discriminate V|]. lia. }
  destruct V1 as [V1 V2]. pose proof (hf_conditions d m h a k ga l4 out th ranges) as C. pose proof (conf_paths ga l4 out th ranges S) as P. cbv zeta in P. destruct P as (P1 & P2 & _ & P4 & _).
  destruct (hf_paths d m h a k (hf_match ga l4 (threat_key out) th ranges)) as (_ & _ & _ & T & s & Ds). constructor.
  - intros l H. rewrite T in H. destruct (some (h_targets h)); [|discriminate H]. unfold jstrings in H. assert (l = map JStr (map target_text (h_targets h))) by congruence. subst l. rewrite !map_length. exact V1.
  - intros c H. apply (C c S) in H. subst c.
    assert (A : at_most_in 256 [range_key out] (hf_conf ga l4 out th ranges)).
    { intros l H. rewrite P4 in H. destruct S as [->|(x & -> & Lx)]; [discriminate H|]. cbn [assoc] in H. rewrite String.eqb_refl in H. unfold jstrings in H. assert (l = map JStr (map prefixlen_text x)) by congruence. subst l. rewrite !map_length. exact Lx. }
    assert (B : at_most_in 256 [range_key (negb out)] (hf_conf ga l4 out th ranges)) by (intros l H; rewrite P2 in H; discriminate H).
    destruct out; cbn [range_key negb] in A, B; auto.
  - intros c l e H Hl Ie. apply (C c S) in H. subst c. rewrite P1 in Hl. assert (l = l4) by congruence. subst l. intros x Hx. apply (layer4_ports _ _ _ _ _ L Ie) in Hx. subst x. rewrite map_length. exact V2.
  - intros x H. rewrite Ds in H. assert (x = slice_to s 64) by congruence. subst x. pose proof (slice_to_length s 64 ltac:(lia)) as Q. unfold slen in Q. lia.
Qed.
Lemma cost_sum l : forall n, (forall e, In e l -> exists x, path ["ipProtocol"] e = Some x) ->
  fold_left (fun n e => n + (Zlen (jlist (assoc "ports" (jdict (Some e)))) + match assoc "ipProtocol" (jdict (Some e)) with Some _ => 1 | None => 0 end)) l n = n + summed (fun e => 1 + counted ["ports"] e) l.
Proof.
  induction l as [|e l IH]; intros n H; cbn [fold_left summed fold_right]; [lia|]. rewrite IH by (intros; apply H; right; assumption). destruct (H e (or_introl eq_refl)) as (x & Hx).
  assert (A : Zlen (jlist (assoc "ports" (jdict (Some e)))) = counted ["ports"] e).
  { unfold counted. destruct e; cbn [jdict path]; try reflexivity. destruct (assoc "ports" _) as [[]|]; reflexivity. }
  assert (B : match assoc "ipProtocol" (jdict (Some e)) with Some _ => 1 | None => 0 end = 1).
  { destruct e; cbn [path] in Hx; try discriminate Hx. cbn [jdict]. destruct (assoc "ipProtocol" _); [reflexivity|discriminate Hx]. }
  rewrite A, B. unfold summed. lia.
Qed.
Lemma counted_assoc k d : Zlen (jlist (assoc k d)) = counted [k] (JDict d).
Proof. unfold counted. cbn [path]. destruct (assoc k d) as [[]|]; reflexivity. Qed.
Lemma hf_rule_charge d m h a k ga v ps l4 ranges : let out := String.eqb d "EGRESS" in
  hf_layer4 v (h_term h) ps l4 -> hf_shape out ranges -> ga = true \/ hf_threats out (h_term h) = [] ->
  let r := hf_rule d m h a k (hf_match ga l4 (threat_key out) (hf_threats out (h_term h)) ranges) in charge r (hf_cost ga r).
Proof.
  cbv zeta. intros L S G. set (out := String.eqb d "EGRESS") in *. set (th := hf_threats out (h_term h)) in *. set (r := hf_rule d m h a k (hf_match ga l4 (threat_key out) th ranges)).
  exists (hf_conf ga l4 out th ranges), l4. split; [apply hf_conditions; auto|]. split; [apply conf_paths, S|]. unfold hf_cost. cbv zeta.
  assert (D : exists dr, r = JDict dr) by (unfold r, hf_rule; eexists; reflexivity). destruct D as (dr & Er).
  assert (Cf : (if ga then jdict (assoc "match" (jdict (Some r))) else jdict (assoc "config" (jdict (assoc "match" (jdict (Some r)))))) = jdict (Some (hf_conf ga l4 out th ranges))).
  { unfold r, hf_rule, hf_match, hf_conf. destruct (some (h_targets h)), ga; reflexivity. }
  rewrite Cf. clear Cf. unfold hf_conf at 1 2 3 4 5. cbn [jdict]. set (dc := ("layer4Configs", JList l4) :: _ ++ ranges).
  assert (Ec : hf_conf ga l4 out th ranges = JDict dc) by reflexivity. rewrite Ec, Er. cbn [jdict]. rewrite !counted_assoc. change (jlist (assoc "layer4Configs" dc)) with l4.
  rewrite cost_sum by (intros e I; apply (layer4_ports _ _ _ _ _ L I)). rewrite <- Er, <- Ec.
  assert (Th : counted ["match"; "srcThreatIntelligences"] r = counted ["srcThreatIntelligences"] (hf_conf ga l4 out th ranges) /\ counted ["match"; "destThreatIntelligences"] r = counted ["destThreatIntelligences"] (hf_conf ga l4 out th ranges)).
  { destruct G as [->|G].
    - unfold r, hf_rule, hf_match, hf_conf, counted. destruct (some (h_targets h)); split; reflexivity.
    - unfold r, hf_rule, hf_match, hf_conf, counted. rewrite G. cbn [some]. destruct (some (h_targets h)), ga, out; destruct S as [->|(x & -> & _)]; split; reflexivity. }
  destruct Th as [-> ->]. lia.
Qed.

(** ** The whole policy *)
Lemma block_rules i h b r : hf_block i h b -> In r b -> hf_within r /\ (hi_ga i = true \/ no_prefix h -> charge r (hf_cost (hi_ga i) r)).
Proof.
  intros [(-> & _)|(_ & _ & n & E)] I; [destruct I|]. destruct (hf_families_in _ _ _ _ _ _ E I) as (v & m & k & rules & _ & Er & Ir). apply In_nth_error in Ir. destruct Ir as (j & Ij).
  destruct (hf_rules_nth _ _ _ _ _ _ _ Er j r Ij) as (a & rest & ps & l4 & ranges & _ & L & V & -> & S). split; [exact (hf_rule_within _ _ _ _ _ _ _ _ _ _ L V S)|].
  intros G. apply (hf_rule_charge _ _ _ _ _ _ _ _ _ _ L S). destruct G as [G|(G1 & G2)]; [left; exact G|right]. destruct (fill_same i h) as (_ & _ & F3 & F4 & _). unfold hf_threats. rewrite F3, F4. destruct (String.eqb _ _); assumption.
Qed.
Lemma terms_rules i n hs rules r : hf_terms i n hs = Ok rules -> In r rules -> exists h, In h hs /\ hf_within r /\ (hi_ga i = true \/ no_prefix h -> charge r (hf_cost (hi_ga i) r)).
Proof.
  intros E I. destruct (hf_terms_blocks _ _ _ _ E) as (bs & -> & _ & F). destruct (concat_block _ _ _ F r I) as (h & b & Ih & B & Ib). exists h. split; [exact Ih|exact (block_rules _ _ _ _ B Ib)].
Qed.
Lemma cost_fold (f : json -> Z) l : forall n, fold_left (fun c r => c + f r) l n = n + fold_right Z.add 0 (map f l).
Proof. induction l as [|x l IH]; intros n; cbn [fold_left map fold_right]; [lia|]. rewrite IH. lia. Qed.
Lemma sum_app a b : fold_right Z.add 0 (a ++ b) = fold_right Z.add 0 a + fold_right Z.add 0 b.
Proof. induction a as [|x a IH]; cbn [app fold_right]; [lia|]. rewrite IH. lia. Qed.
Definition named_ok (fields : list (string * json)) : Prop := forall key s, In key ["shortName"; "displayName"] -> assoc key fields = Some (JStr s) -> rfc1035 s.
Lemma hf_filters_limits afs apis : Permutation afs family_words -> Permutation apis ["beta"; "ga"] -> forall fs fields n cost before out, hf_filters afs apis fields n cost before fs = Ok out ->
  (forall r, In r (snd (fst out)) -> hf_within r) /\
  (named_ok fields -> named_ok (fst (fst out))) /\
  (fs <> [] \/ (exists key s, In key ["shortName"; "displayName"] /\ assoc key fields = Some (JStr s)) -> exists key s, In key ["shortName"; "displayName"] /\ assoc key (fst (fst out)) = Some (JStr s)) /\
  (forall options hs m, In (options, hs) fs -> limit_of options m -> (before = -1 \/ m = before) /\ snd out <= m <= 65536) /\
  ((forall options hs h, In (options, hs) fs -> In "beta" options -> In h hs -> no_prefix h) ->
    exists ns, Forall2 charge (snd (fst out)) ns /\ snd out = cost + fold_right Z.add 0 ns).
Proof.
  intros Pa Pp. induction fs as [|[options hs] fs IH]; intros fields n cost before out E; cbn [hf_filters] in E.
  - apply ok_inj in E. subst out. cbn [fst snd]. split; [intros r []|]. split; [auto|]. split; [intros [X|X]; [contradiction X; reflexivity|exact X]|]. split; [intros o h m []|]. intros _. exists []. split; [constructor|]. cbn. lia.
  - destruct (hf_options afs apis options) as [i|] eqn:Ei; [|discriminate E]. cbn [bind] in E. destruct (negb (before =? -1) && negb (before =? hi_max i)) eqn:Eb; [discriminate E|]. cbv zeta in E.
    destruct (match assoc _ fields with Some _ => _ | None => _ end); [discriminate E|]. destruct (hf_terms i n hs) as [rules|] eqn:Et; [|discriminate E]. cbn [bind] in E.
    rewrite cost_fold in E. set (cost' := cost + fold_right Z.add 0 (map (hf_cost (hi_ga i)) rules)) in *. set (fields' := if hi_ga i then _ else _) in E.
    destruct (match fs with [] => hi_max i <? cost' | _ => false end) eqn:Ec; [discriminate E|]. destruct (hf_filters _ _ _ (n + Zlen rules) _ _ fs) as [more|] eqn:Em; [|discriminate E]. cbn [bind] in E. apply ok_inj in E. subst out. cbn [fst snd].
    destruct (hf_options_spec _ _ _ _ Ei Pa Pp) as (_ & _ & Ga & Lm & Rg & Rf). destruct (IH _ _ _ _ _ Em) as (I1 & I2 & I3 & I4 & I5).
    split; [|split; [|split; [|split]]].
    + intros r I. apply in_app_or in I. destruct I as [I|I]; [|exact (I1 r I)]. destruct (terms_rules _ _ _ _ _ Et I) as (h & _ & W & _). exact W.
    + intros Nk. apply I2. intros key s Ik Hs. subst fields'. destruct (hi_ga i).
      * rewrite assoc_jset in Hs. destruct (String.eqb key "shortName"); [assert (s = hi_name i) by congruence; subst s; exact Rf|exact (Nk key s Ik Hs)].
      * rewrite !assoc_jset in Hs. destruct (String.eqb_spec key "type") as [->|_]; [destruct Ik as [X|[X|[]]]; discriminate X|]. destruct (String.eqb key "displayName"); [assert (s = hi_name i) by congruence; subst s; exact Rf|exact (Nk key s Ik Hs)].
    + intros _. apply I3. right. subst fields'. destruct (hi_ga i); [exists "shortName", (hi_name i)|exists "displayName", (hi_name i)]; (split; [cbn; tauto|]); rewrite !assoc_jset; reflexivity.
    + assert (Own : snd more <= hi_max i).
      { destruct fs as [|[o2 h2] fs]; [cbn [hf_filters] in Em; apply ok_inj in Em; subst more; cbn [snd]; lia|].
        destruct (limit_exists o2) as (m2 & L2). destruct (I4 o2 h2 m2 (or_introl eq_refl) L2) as ([X|X] & Y); [lia|]. subst m2. lia. }
      assert (Bf : before = -1 \/ hi_max i = before) by (destruct (before =? -1) eqn:B1; [left; lia|]; cbn [negb andb] in Eb; right; lia).
      intros o2 h2 m [X|X] L2.
      * assert (o2 = options) by congruence. subst o2. rewrite <- (Lm m L2). split; [exact Bf|lia].
      * destruct (I4 o2 h2 m X L2) as ([Y|Y] & Z2); [lia|]. subst m. split; [exact Bf|exact Z2].
    + intros Np. destruct I5 as (ns & F & Sn); [intros; eapply Np; try right; eassumption|]. exists (map (hf_cost (hi_ga i)) rules ++ ns). split.
      * apply Forall2_app; [|exact F]. assert (A : forall r, In r rules -> charge r (hf_cost (hi_ga i) r)).
        { intros r I. destruct (terms_rules _ _ _ _ _ Et I) as (h & Ih & _ & C). apply C. destruct (in_dec string_dec "beta" options) as [B|B]; [right; exact (Np options hs h (or_introl eq_refl) B Ih)|left; exact (Ga B)]. }
        clear - A. induction rules as [|r rules IH]; cbn [map]; constructor; [apply A; left; reflexivity|apply IH; intros; apply A; right; assumption].
      * rewrite Sn, sum_app. subst cost'. lia.
Qed.
Theorem hf_limits afs apis fs policy rules : hf_policy afs apis fs = Ok [policy] -> rules_of policy rules -> Permutation afs family_words -> Permutation apis ["beta"; "ga"] ->
  (forall r, In r rules -> hf_within r) /\
  (exists key s, In key ["shortName"; "displayName"] /\ path [key] policy = Some (JStr s)) /\
  (forall key s, In key ["shortName"; "displayName"] -> path [key] policy = Some (JStr s) -> rfc1035 s) /\
  ((forall options hs h, In (options, hs) fs -> In "beta" options -> In h hs -> no_prefix h) ->
    exists ns, Forall2 charge rules ns /\ forall options hs n, In (options, hs) fs -> limit_of options n -> fold_right Z.add 0 ns <= n <= 65536).
Proof.
  intros E R Pa Pp. unfold hf_policy in E. destruct (check_tokens _ _ _); [|discriminate E]. cbn [bind] in E. destruct (hf_filters _ _ _ _ _ _ _) as [out|] eqn:Ef; [|discriminate E]. cbn [bind] in E.
  destruct (hf_filters_limits _ _ Pa Pp _ _ _ _ _ _ Ef) as (L1 & L2 & L3 & L4 & L5). destruct fs as [|f fs]; [discriminate E|]. apply ok_inj in E.
  assert (policy = JDict (("rules", JList (snd (fst out))) :: fst (fst out))) by congruence. subst policy. unfold rules_of in R. cbn [path assoc String.eqb Ascii.eqb Bool.eqb] in R.
  assert (rules = snd (fst out)) by congruence. subst rules. clear R E.
  assert (Pt : forall key s, In key ["shortName"; "displayName"] -> (path [key] (JDict (("rules", JList (snd (fst out))) :: fst (fst out))) = Some (JStr s) <-> assoc key (fst (fst out)) = Some (JStr s))).
  { intros key s [<-|[<-|[]]]; cbn [path assoc String.eqb Ascii.eqb Bool.eqb]; destruct (assoc _ (fst (fst out))); reflexivity. }
  split; [exact L1|]. split; [|split].
  - destruct L3 as (key & s & I & H); [left; discriminate|]. exists key, s. split; [exact I|apply Pt; auto].
  - intros key s I H. apply (L2 ltac:(intros k x _ X; discriminate X) key s I). apply Pt; auto.
  - intros Np. destruct (L5 Np) as (ns & F & Sn). exists ns. split; [exact F|]. intros options hs n I L. destruct (L4 _ _ _ I L) as (_ & X). lia.
Qed.
