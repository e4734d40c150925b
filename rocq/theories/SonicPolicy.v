(** Proofs about the SONiC generator: tables, priorities, decisions. *)
From Coq Require Import Lia ZifyBool ZifyNat Permutation.
From Verif Require Import SpecSonic BaseFacts PyStrFacts IPFacts CollapseProofs ExcludeProofs PolicyProofs GenProofs GenProofs2 TextProofs IptText CiscoProofs CiscoProofs2 CiscoAcl GceProofs GceRules GceDecide QuietTerm OpenConfigProofs OpenConfigPolicy SonicProofs.
Local Open Scope string_scope.
Local Open Scope list_scope.
Local Open Scope Z_scope.

Local Notation sn_entry := (string * json)%type.
(** ** Numbers *)
Definition sn_numbers (name : string) (k : Z) (es : list sn_entry) (k' : Z) : Prop :=
  k' = k + Z.of_nat (List.length es) /\
  forall i e, nth_error es i = Some e -> fst e = append name (append "|RULE_" (dec (10 * (k + 1 + Z.of_nat i)))) /\
    priority_of (snd e) (65536 - 10 * (k + 1 + Z.of_nat i)) /\ 0 <= 65536 - 10 * (k + 1 + Z.of_nat i).
Lemma sn_numbers_nil name k : sn_numbers name k [] k.
Proof. split; [cbn; lia|]. intros [|i] e H; discriminate H. Qed.
Lemma sn_numbers_app name a es b fs c : sn_numbers name a es b -> sn_numbers name b fs c -> sn_numbers name a (es ++ fs) c.
Proof.
  intros [E1 N1] [E2 N2]. split; [rewrite app_length; lia|]. intros i e H. destruct (Nat.lt_ge_cases i (List.length es)) as [L|L].
  - rewrite nth_error_app1 in H by exact L. exact (N1 i e H).
  - rewrite nth_error_app2 in H by exact L. specialize (N2 _ e H).
    replace (b + 1 + Z.of_nat (i - List.length es)) with (a + 1 + Z.of_nat i) in N2 by lia. exact N2.
Qed.
Lemma sn_number_spec name v act : forall rs k k' es, sn_number name v act k rs = Ok (k', es) ->
  sn_numbers name k es k' /\ Forall2 (fun a e => exists n, snd e = sn_json v act a n) rs es.
Proof.
  induction rs as [|a rs IH]; intros k k' es E; cbn [sn_number] in E.
  - apply ok_inj, pair_equal_spec in E. destruct E as [<- <-]. split; [apply sn_numbers_nil|constructor].
  - cbv zeta in E. destruct (Z.ltb_spec (65536 - 10 * (k + 1)) 0) as [L|L]; [discriminate E|].
    destruct (sn_number name v act (k + 1) rs) as [[k1 more]|] eqn:E1; [|discriminate E]. cbn [bind] in E.
    apply ok_inj, pair_equal_spec in E. destruct E as [<- <-]. destruct (IH _ _ _ E1) as [N F].
    match goal with |- sn_numbers _ _ (?e :: _) _ /\ _ => set (e0 := e) end.
    split; [|constructor; [eexists; reflexivity|exact F]]. change (e0 :: more) with ([e0] ++ more).
    apply sn_numbers_app with (k + 1); [|exact N]. split; [cbn; lia|]. intros [|i] e H; [|destruct i; discriminate H]. injection H as <-.
    cbn [Z.of_nat]. rewrite !Z.add_0_r. split; [reflexivity|]. split; [|exact L]. unfold e0. cbn [snd].
    destruct (json_paths v act a (65536 - 10 * (k + 1))) as (_ & _ & _ & _ & _ & _ & _ & _ & _ & _ & _ & _ & _ & P).
    eexists. split; [exact P|apply dec_value, L].
Qed.
Lemma numbered_says name v act rs k k' es p o : sn_number name v act k rs = Ok (k', es) ->
  ((exists e, In e es /\ sn_rule_says (snd e) p o) <-> exists a, In a rs /\ sn_rule_says (sn_json v act a 0) p o).
Proof.
  intros E. destruct (sn_number_spec _ _ _ _ _ _ _ E) as [_ F].
  assert (A : forall a n, sn_rule_says (sn_json v act a n) p o <-> sn_rule_says (sn_json v act a 0) p o) by (intros a n; rewrite !rule_says_made; reflexivity).
  split.
  - intros (e & I & S). destruct (NamingProofs.Forall2_in_r _ _ _ _ F I) as (a & Ia & n & En). exists a. split; [exact Ia|]. rewrite En in S. apply A in S. exact S.
  - intros (a & I & S). destruct (IptRule.Forall2_in_l _ _ _ _ F I) as (e & Ie & n & En). exists e. split; [exact Ie|]. rewrite En. apply A. exact S.
Qed.

(** ** The rules of a term *)
Lemma sn_outcome_iff a o : assoc a sn_actions = Some o <-> sn_outcome a o.
Proof.
  unfold sn_outcome, sn_actions. cbn [assoc]. split.
  - destruct (String.eqb_spec a "accept") as [->|N1]; [intros E; injection E as <-; auto|].
    destruct (String.eqb_spec a "deny") as [->|N2]; [intros E; injection E as <-; auto|discriminate].
  - intros [[-> ->]|[-> ->]]; reflexivity.
Qed.
Record sn_good (t : term) : Prop := {
  sg_ok : sn_term_ok t; sg_quiet : quiet "sonic" t; sg_option : forall o, In o (t_option t) -> o = "tcp-established";
  sg_exclude : t_source_address_exclude t = [] /\ t_destination_address_exclude t = [] }.
Definition answer (t : term) (o : string) : Prop := exists a r, t_action t = a :: r /\ sn_outcome a o.
Lemma is_protocol_iff names ps w : Forall2 kept_proto names ps -> w <> "ipip" -> is_protocol w ps = true <-> names = [w].
Proof.
  intros F N. split.
  - intros H. destruct ps as [|[s|k] [|q ps]]; try discriminate H. cbn [is_protocol] in H. apply String.eqb_eq in H. subst s.
    inversion F as [|x ? l ? K F1]; subst. inversion F1; subst. destruct K as [K|[_ K]]; [|discriminate K]. injection K as ->. reflexivity.
  - intros ->. inversion F as [|x y l ? K F1]; subst. inversion F1; subst. destruct K as [->|[-> _]]; [|congruence]. cbn [is_protocol]. apply String.eqb_refl.
Qed.
Lemma sn_term_sound w v t x act rs p o : sn_good t -> kept_as t x -> t_source_address (fst x) = t_source_address t -> t_destination_address (fst x) = t_destination_address t ->
  sn_traffic v p -> sn_term w x = Ok (act, rs) ->
  ((exists a, In a rs /\ sn_rule_says (sn_json w act a 0) p o) -> term_matches t p /\ answer t o) /\
  (w = v -> term_matches t p -> answer t o -> exists a, In a rs /\ sn_rule_says (sn_json w act a 0) p o).
Proof.
  intros [K Q Opt [Xs Xd]] Ka As Ad T E. pose proof (ka_same _ _ Ka) as R. pose proof (ka_protos _ _ Ka) as Fp.
  rewrite (quiet_matches "sonic" t p Q (nq_platform _ _ T)).
  assert (Sm : forall l exc y, exc = [] -> side_matches l exc y <-> l = [] \/ covered l y).
  { intros l exc y ->. unfold side_matches. rewrite covered_nil. tauto. }
  rewrite (Sm _ _ _ Xs), (Sm _ _ _ Xd).
  assert (None_ : rs = [] -> (w = v -> t_action t <> [] -> (t_source_address t = [] \/ covered (t_source_address t) (p_src p)) /\ (t_destination_address t = [] \/ covered (t_destination_address t) (p_dst p)) /\
     any_or (t_protocol t) (eq (p_proto p)) -> False) ->
     ((exists a, In a rs /\ sn_rule_says (sn_json w act a 0) p o) ->
       ((t_source_address t = [] \/ covered (t_source_address t) (p_src p)) /\ (t_destination_address t = [] \/ covered (t_destination_address t) (p_dst p)) /\
        any_or (t_protocol t) (eq (p_proto p)) /\ ports_match (t_source_port t) (p_sport p) /\ ports_match (t_destination_port t) (p_dport p) /\
        (forall o0, In o0 (t_option t) -> p_option p o0) /\ any_or (t_icmp_type t) (eq (p_icmp_type p))) /\ answer t o) /\
     (w = v -> (t_source_address t = [] \/ covered (t_source_address t) (p_src p)) /\ (t_destination_address t = [] \/ covered (t_destination_address t) (p_dst p)) /\
        any_or (t_protocol t) (eq (p_proto p)) /\ ports_match (t_source_port t) (p_sport p) /\ ports_match (t_destination_port t) (p_dport p) /\
        (forall o0, In o0 (t_option t) -> p_option p o0) /\ any_or (t_icmp_type t) (eq (p_icmp_type p)) -> answer t o -> exists a, In a rs /\ sn_rule_says (sn_json w act a 0) p o)).
  { intros -> H. split; [intros (a & [] & _)|]. intros Ew (M1 & M2 & M3 & _) (a & r & Ea & _). exfalso. apply (H Ew); [rewrite Ea; discriminate|auto]. }
  unfold sn_term in E. cbv zeta in E. rewrite (sr_action _ _ R), (sr_platform _ _ R), (sr_option _ _ R), (sr_icmp _ _ R), As, Ad in E.
  destruct (t_action t) as [|a0 r0] eqn:Ea; [apply ok_inj, pair_equal_spec in E; destruct E as [_ E]; apply None_; [auto|intros _ X; congruence]|].
  assert (Pl : some (t_platform t) && negb (str_in "sonic" (t_platform t)) = false).
  { destruct (qt_place _ _ Q) as ((M & _) & _). destruct M as [->|M]; [reflexivity|]. apply str_in_spec in M. rewrite M. apply andb_false_r. }
  rewrite Pl in E. destruct (assoc a0 sn_actions) as [action|] eqn:Eact; [|discriminate E]. pose proof (nq_icmp _ _ T) as Ni.
  destruct (is_protocol "icmp" (snd x) && ver_eqb w V6) eqn:E4.
  { apply ok_inj, pair_equal_spec in E. destruct E as [_ E]. apply None_; [auto|]. intros <- _ (_ & _ & M). apply andb_true_iff in E4. destruct E4 as [E4 E5].
    apply ver_eqb_eq in E5. subst w. apply (is_protocol_iff _ _ _ Fp) in E4; [|discriminate]. rewrite E4 in M. destruct M as [M|(z & [<-|[]] & M)]; [discriminate M|contradiction]. }
  destruct (is_protocol "icmpv6" (snd x) && ver_eqb w V4) eqn:E6.
  { apply ok_inj, pair_equal_spec in E. destruct E as [_ E]. apply None_; [auto|]. intros <- _ (_ & _ & M). apply andb_true_iff in E6. destruct E6 as [E6 E5].
    apply ver_eqb_eq in E5. subst w. apply (is_protocol_iff _ _ _ Fp) in E6; [|discriminate]. rewrite E6 in M. destruct M as [M|(z & [<-|[]] & M)]; [discriminate M|contradiction]. }
  match type of E with bind ?m _ = _ => destruct m as [types|] eqn:Et; [|discriminate E] end. cbn [bind] in E.
  destruct (nq_src _ _ T) as [S1 S2], (nq_dst _ _ T) as [D1 D2].
  destruct (oc_side w (fst x) (t_source_address t) _) as [s|] eqn:Es; [|discriminate E]. cbn [bind] in E.
  destruct (sn_usable w (t_source_address t)) eqn:Us; cbn [negb] in E.
  2: { apply ok_inj, pair_equal_spec in E. destruct E as [_ E]. apply None_; [auto|]. intros <- _ (M & _). apply (sn_usable_complete w) in M; [|exact S1]. destruct M. congruence. }
  destruct (oc_side w (fst x) (t_destination_address t) _) as [d|] eqn:Ed; [|discriminate E]. cbn [bind] in E.
  destruct (sn_usable w (t_destination_address t)) eqn:Ud; cbn [negb] in E.
  2: { apply ok_inj, pair_equal_spec in E. destruct E as [_ E]. apply None_; [auto|]. intros <- _ (_ & M & _). apply (sn_usable_complete w) in M; [|exact D1]. destruct M. congruence. }
  destruct (sn_rules _ _ _ _ _ _) as [rs'|] eqn:Er; [|discriminate E]. cbn [bind] in E. apply ok_inj, pair_equal_spec in E. destruct E as [<- <-]. clear None_.
  assert (Sd : forall l exc o, oc_side w (fst x) l exc = Ok o -> o = address_of_version l (Some w)).
  { intros l exc o' X. unfold oc_side in X. match type of X with (if ?b then _ else _) = _ => destruct b end; [discriminate X|]. apply ok_inj in X. auto. }
  apply Sd in Es, Ed. subst s d. unfold sn_rules in Er. rewrite (sr_sport _ _ R), (sr_dport _ _ R) in Er.
  assert (On : forall y : ipaddr, fst y = v -> 0 <= snd y < 2 ^ width v -> on_net y) by (intros y <- H; exact H).
  destruct (sn_rules_match w t types (snd x) rs' action p o (fun _ => 0) K Opt (nq_established _ _ T) (On _ S1 S2) (On _ D1 D2) Fp Et Er) as [Ti M]. split.
  - intros X. apply M in X. destruct X as (-> & X1 & X2 & X3). split; [|exists a0, r0; split; [exact Ea|]; apply sn_outcome_iff, Eact].
    split; [exact (sn_usable_sound _ _ _ Us X1)|]. split; [exact (sn_usable_sound _ _ _ Ud X2)|exact X3].
  - intros -> (X1 & X2 & X3) (a & r & Ea' & O). apply M. rewrite Ea in Ea'. injection Ea' as <- <-. apply sn_outcome_iff in O.
    split; [congruence|]. split; [apply (sn_usable_complete v); assumption|]. split; [apply (sn_usable_complete v); assumption|exact X3].
Qed.

(** ** All families, all terms *)
Lemma sn_each_spec name t : forall vs k x k' es, kept_as t x -> sn_each name vs k x = Ok (k', es) ->
  sn_numbers name k es k' /\
  (some (t_platform t) && negb (str_in "sonic" (t_platform t)) = true -> es = []) /\
  (sn_good t -> forall v p o, In v vs -> sn_traffic v p -> ((exists e, In e es /\ sn_rule_says (snd e) p o) <-> term_matches t p /\ answer t o)).
Proof.
  assert (G : forall vs k x k' es, kept_as t x -> sn_each name vs k x = Ok (k', es) -> sn_numbers name k es k' /\
    (some (t_platform t) && negb (str_in "sonic" (t_platform t)) = true -> es = []) /\
    (sn_good t -> forall v p o, sn_traffic v p -> ((exists e, In e es /\ sn_rule_says (snd e) p o) -> term_matches t p /\ answer t o) /\
       (In v vs -> term_matches t p -> answer t o -> exists e, In e es /\ sn_rule_says (snd e) p o))).
  { induction vs as [|w vs IH]; intros k x k' es Ka E; cbn [sn_each] in E.
    - apply ok_inj, pair_equal_spec in E. destruct E as [<- <-]. split; [apply sn_numbers_nil|]. split; [reflexivity|]. intros _ v p o _. split; [intros (e & [] & _)|intros []].
    - destruct (oc_init x) as [x1|] eqn:E0; [|discriminate E]. cbn [bind] in E. destruct (sn_term w x1) as [[act rs]|] eqn:E1; [|discriminate E]. cbn [bind] in E.
      destruct (sn_number name w act k rs) as [[k1 e1]|] eqn:E2; [|discriminate E]. cbn [bind] in E.
      destruct (sn_each name vs k1 x1) as [[k2 e2]|] eqn:E3; [|discriminate E]. cbn [bind] in E. apply ok_inj, pair_equal_spec in E. destruct E as [<- <-].
      destruct (oc_init_kept t x x1 Ka E0) as [K1 D]. destruct (IH _ _ _ _ K1 E3) as (N & Pl & G).
      split; [exact (sn_numbers_app _ _ _ _ _ _ (proj1 (sn_number_spec _ _ _ _ _ _ _ E2)) N)|]. split.
      + intros X. rewrite (Pl X), app_nil_r. unfold sn_term in E1. cbv zeta in E1. rewrite (sr_platform _ _ (ka_same _ _ K1)), X in E1.
        assert (Er : rs = []) by (destruct (t_action (fst x1)); apply ok_inj, pair_equal_spec in E1; destruct E1; auto). subst rs. cbn [sn_number] in E2. apply ok_inj, pair_equal_spec in E2. destruct E2; auto.
      + intros Gt v p o T. destruct (sg_exclude _ Gt) as [Xs Xd]. pose proof (nt_addresses _ (sg_ok _ Gt)) as [Vs Vd].
        destruct D as [[_ [_ Ds]] [_ [_ Dd]]].
        { split; [apply (qt_address _ _ (sg_quiet _ Gt))|]. rewrite Xs, Xd. split; (split; [assumption|split; [constructor|left; reflexivity]]). }
        destruct (sn_term_sound w v t x1 act rs p o Gt K1 (Ds Xs) (Dd Xd) T E1) as [S1 S2]. rewrite <- (numbered_says _ _ _ _ _ _ _ p o E2) in S1, S2.
        destruct (G Gt v p o T) as [G1 G2]. split.
        * intros (e & I & S). apply in_app_or in I. destruct I as [I|I]; [apply S1|apply G1]; exists e; auto.
        * intros [->|I] M A; [destruct (S2 eq_refl M A) as (e & I & S)|destruct (G2 I M A) as (e & I' & S)]; exists e; (split; [apply in_or_app; auto|exact S]). }
  intros vs k x k' es Ka E. destruct (G _ _ _ _ _ Ka E) as (N & Pl & H). split; [exact N|]. split; [exact Pl|].
  intros Gt v p o I T. destruct (H Gt v p o T) as [H1 H2]. split; [exact H1|]. intros [M A]. exact (H2 I M A).
Qed.
Definition sn_block (vs : list ver) (today : Z) (t : term) (b : list sn_entry) : Prop :=
  (~ in_force today t -> b = []) /\
  (some (t_platform t) && negb (str_in "sonic" (t_platform t)) = true -> b = []) /\
  (sn_good t -> in_force today t -> forall v p o, In v vs -> sn_traffic v p -> ((exists e, In e b /\ sn_rule_says (snd e) p o) <-> term_matches t p /\ answer t o)).
Lemma expired_force today t : if expired today t then ~ in_force today t else in_force today t.
Proof.
  unfold expired, in_force. destruct (t_expiration t) as [d|]; [destruct (Z.leb_spec d today) as [L|L]|].
  - intros X. specialize (X d eq_refl). lia.
  - intros d' X. injection X as <-. exact L.
  - intros d' X. discriminate X.
Qed.
Lemma sn_terms_blocks name vs today : forall ts k k' es, sn_terms name vs today k ts = Ok (k', es) ->
  sn_numbers name k es k' /\ exists blocks, es = concat blocks /\ Forall2 (sn_block vs today) ts blocks.
Proof.
  induction ts as [|t ts IH]; intros k k' es E; cbn [sn_terms] in E.
  - apply ok_inj, pair_equal_spec in E. destruct E as [<- <-]. split; [apply sn_numbers_nil|]. exists []. split; [reflexivity|constructor].
  - match type of E with bind ?m _ = _ => destruct m as [[k1 e1]|] eqn:E1; [|discriminate E] end. cbn [bind] in E.
    destruct (sn_terms name vs today k1 ts) as [[k2 e2]|] eqn:E2; [|discriminate E]. cbn [bind] in E. apply ok_inj, pair_equal_spec in E. destruct E as [<- <-].
    destruct (IH _ _ _ E2) as (N & bs & -> & F). pose proof (expired_force today t) as X.
    assert (B : sn_numbers name k e1 k1 /\ sn_block vs today t e1).
    { destruct (expired today t).
      - apply ok_inj, pair_equal_spec in E1. destruct E1 as [<- <-]. split; [apply sn_numbers_nil|]. split; [reflexivity|]. split; [reflexivity|]. intros _ Y. contradiction.
      - destruct (sn_each_spec name t vs k _ _ _ (kept_start t) E1) as (N1 & P1 & S1). split; [exact N1|]. split; [intros Y; contradiction|]. split; [exact P1|]. intros Gt _. exact (S1 Gt). }
    destruct B as [N1 B]. split; [exact (sn_numbers_app _ _ _ _ _ _ N1 N)|]. exists (e1 :: bs). split; [reflexivity|constructor; assumption].
Qed.
Lemma sn_blocks_decide vs today v p o : forall ts blocks, Forall2 (sn_block vs today) ts blocks -> In v vs -> sn_traffic v p ->
  (forall t, In t ts -> in_force today t -> any_or (t_platform t) (eq "sonic") -> sn_good t) ->
  (first_says (fun e o => sn_rule_says (snd e) p o) (concat blocks) o <-> sn_policy_decides today ts p o).
Proof.
  intros ts blocks F Iv T K. unfold sn_policy_decides. apply first_says_blocks.
  assert (Det : forall t w w', answer t w -> answer t w' -> w = w').
  { intros t w w' (a & r & E & X) (a' & r' & E' & X'). rewrite E in E'. injection E' as <- _. apply sn_outcome_iff in X, X'. congruence. }
  revert K. induction F as [|t b ts blocks (B1 & B2 & B3) F IH]; intros K; [constructor|]. constructor; [|apply IH; intros u I; apply K; right; exact I].
  split; [|intros a a' (_ & _ & X) (_ & _ & Y); exact (Det t _ _ X Y)].
  intros w. pose proof (expired_force today t) as Ex. destruct (expired today t).
  { rewrite (B1 Ex). split; [intros (y & [] & _)|intros (Y & _); contradiction]. }
  destruct (some (t_platform t) && negb (str_in "sonic" (t_platform t))) eqn:Pl.
  { rewrite (B2 eq_refl). split; [intros (y & [] & _)|]. intros (_ & M & _). exfalso. apply andb_true_iff in Pl. destruct Pl as [P1 P2].
    destruct M as (_ & _ & _ & _ & _ & _ & _ & (M1 & _) & _). rewrite (nq_platform _ _ T) in M1.
    destruct M1 as [M1|(q & I & <-)]; [rewrite M1 in P1; discriminate P1|]. apply str_in_spec in I. rewrite I in P2. discriminate P2. }
  rewrite (B3 (K t (or_introl eq_refl) Ex ltac:(
    destruct (t_platform t) as [|q l]; [left; reflexivity|]; right; cbn [some andb] in Pl; apply negb_false_iff, str_in_spec in Pl; exists "sonic"; auto)) Ex v p w Iv T).
  unfold answer. tauto.
Qed.
Lemma sn_first name d p o : sn_numbers name 0 d (Z.of_nat (List.length d)) ->
  (sn_table_decides name (JDict [("ACL_RULE", JDict d)]) p o <-> first_says (fun e o => sn_rule_says (snd e) p o) d o).
Proof.
  intros [_ N]. assert (Ro : forall r, rule_of name (JDict [("ACL_RULE", JDict d)]) r <-> exists i e, nth_error d i = Some e /\ snd e = r).
  { intros r. unfold rule_of. split.
    - intros (d' & key & E & I). cbn [path assoc] in E. change (String.eqb "ACL_RULE" "ACL_RULE") with true in E. cbv iota in E. injection E as <-.
      apply In_nth_error in I. destruct I as (i & I). exists i, (append name (append "|" key), r). auto.
    - intros (i & [key r'] & I & <-). destruct (N i _ I) as (E & _). cbn [fst] in E. exists d, (append "RULE_" (dec (10 * (0 + 1 + Z.of_nat i)))). split; [reflexivity|].
      apply nth_error_In in I. rewrite E in I. exact I. }
  assert (Pu : forall r n m, priority_of r n -> priority_of r m -> n = m).
  { intros r n m (s & A & B) (s' & A' & B'). rewrite A in A'. injection A' as Es. subst s'. rewrite B in B'. injection B' as Ez. exact Ez. }
  split.
  - intros (r & n & R & S & P & L). apply Ro in R. destruct R as (i & e & I & <-). destruct (N i e I) as (_ & P' & _). pose proof (Pu _ _ _ P P') as ->.
    destruct (nth_error_split d i I) as (l1 & l2 & -> & Len). exists l1, e, l2. split; [reflexivity|]. split; [exact S|].
    intros y w Iy Sy. apply In_nth_error in Iy. destruct Iy as (k & Iy). assert (Lk : (k < List.length l1)%nat) by (apply nth_error_Some; intros X; rewrite Iy in X; discriminate X).
    assert (Iy' : nth_error (l1 ++ e :: l2) k = Some y) by (rewrite nth_error_app1 by exact Lk; exact Iy).
    apply (L (snd y) w (65536 - 10 * (0 + 1 + Z.of_nat k))); [apply Ro; exists k, y; auto|exact Sy|apply (N k y Iy')|lia].
  - intros (l1 & e & l2 & E & S & L). assert (I : nth_error d (List.length l1) = Some e) by (rewrite E, nth_error_app2, Nat.sub_diag by lia; reflexivity).
    exists (snd e), (65536 - 10 * (0 + 1 + Z.of_nat (List.length l1))). split; [apply Ro; exists (List.length l1), e; auto|]. split; [exact S|]. split; [apply (N _ _ I)|].
    intros r' o' n' R' S' P' Ln. apply Ro in R'. destruct R' as (k & e' & I' & <-). destruct (N k e' I') as (_ & P2 & _). pose proof (Pu _ _ _ P' P2) as ->.
    apply (L e' o'); [|exact S']. rewrite E, nth_error_app1 in I' by lia. exact (nth_error_In _ _ I').
Qed.

(** ** Whole policies *)
Definition walk2 (order : list ver) : Prop := Permutation order [V4; V6].
Lemma sn_families_spec order options v : walk2 order -> In v (sn_families order options) <-> wants v options.
Proof.
  intros W. unfold sn_families, wants. rewrite filter_In, orb_true_iff, !str_in_spec. split; [intros [_ H]; exact H|]. intros H. split; [|exact H].
  apply (Permutation_in _ (Permutation_sym W)). destruct v; cbn; auto.
Qed.
Lemma sn_policy_parts order today options terms j : sn_policy order today [(options, terms)] = Ok j ->
  check_tokens "sonic" sn_tokens [(["sonic"], terms)] = Ok tt /\
  ((sn_families order options = [] /\ j = JDict []) \/
   exists name rest es, options = name :: rest /\ j = JDict [("ACL_RULE", JDict es)] /\ sn_terms name (sn_families order options) today 0 terms = Ok (Z.of_nat (List.length es), es)).
Proof.
  unfold sn_policy. cbn [map snd]. intros E. destruct (check_tokens _ _ _) as [[]|] eqn:Ck; [|discriminate E]. cbn [bind] in E. split; [reflexivity|].
  cbn [sn_filters] in E. destruct options as [|name rest]; [discriminate E|]. destruct (sn_families order (name :: rest)) as [|v vs] eqn:Ef.
  - left. split; [reflexivity|]. cbn [bind] in E. apply ok_inj in E. auto.
  - right. match type of E with bind (bind ?m _) _ = _ => destruct m as [[k es]|] eqn:E1; [|discriminate E] end. cbn [bind app] in E. apply ok_inj in E.
    exists name, rest, es. split; [reflexivity|]. split; [auto|]. destruct (sn_terms_blocks _ _ _ _ _ _ _ E1) as [[Hk _] _]. rewrite Z.add_0_l in Hk. rewrite <- Hk. exact E1.
Qed.
Theorem sn_rules_numbered order today options terms j name rest v : walk2 order -> sn_policy order today [(options, terms)] = Ok j ->
  options = name :: rest -> wants v options ->
  exists d, path ["ACL_RULE"] j = Some (JDict d) /\ forall i e, nth_error d i = Some e ->
    fst e = append name (append "|RULE_" (dec (10 + 10 * Z.of_nat i))) /\ priority_of (snd e) (65526 - 10 * Z.of_nat i) /\ 0 <= 65526 - 10 * Z.of_nat i.
Proof.
  intros W E Eo Wv. apply (sn_families_spec order) in Wv; [|exact W]. destruct (sn_policy_parts _ _ _ _ _ E) as (_ & [(X & _)|(n & r & es & E1 & -> & E2)]).
  - rewrite X in Wv. destruct Wv.
  - rewrite E1 in Eo. injection Eo as -> ->. exists es. split; [reflexivity|]. destruct (sn_terms_blocks _ _ _ _ _ _ _ E2) as [[_ N] _]. intros i e I. specialize (N i e I).
    replace (10 * (0 + 1 + Z.of_nat i)) with (10 + 10 * Z.of_nat i) in N by lia. replace (65536 - (10 + 10 * Z.of_nat i)) with (65526 - 10 * Z.of_nat i) in N by lia. exact N.
Qed.
Theorem sn_decides order today options terms j name rest v p o : walk2 order -> sn_policy order today [(options, terms)] = Ok j ->
  options = name :: rest -> wants v options ->
  (forall t, In t terms -> in_force today t -> any_or (t_platform t) (eq "sonic") -> sn_term_ok t) -> sn_traffic v p ->
  (sn_table_decides name j p o <-> sn_policy_decides today terms p o).
Proof.
  intros W E Eo Wv K T. apply (sn_families_spec order) in Wv; [|exact W]. destruct (sn_policy_parts _ _ _ _ _ E) as (Ck & [(X & _)|(n & r & es & E1 & -> & E2)]).
  { rewrite X in Wv. destruct Wv. }
  rewrite E1 in Eo. injection Eo as -> ->. destruct (sn_terms_blocks _ _ _ _ _ _ _ E2) as (N & bs & -> & B).
  rewrite (sn_first name _ p o N). apply (sn_blocks_decide (sn_families order options) today v p o terms bs B Wv T).
  intros t It Ft Pl. specialize (K t It Ft Pl). destruct (nt_warned _ K) as (K1 & K2 & K3 & K4). destruct (nt_texts _ K) as [K5 K6].
  assert (Mf : meant_for "sonic" t). { split; [destruct Pl as [Pl|(q & I & <-)]; [left; exact Pl|right; exact I]|apply (nt_platform _ K)]. }
  assert (Tk : forall s, str_in s (supported default_tokens) = false -> str_in s (supported sn_tokens) = false).
  { intros s Hs. unfold sn_tokens. cbn [supported]. destruct (str_in s (filter _ _)) eqn:X; [|reflexivity]. apply str_in_spec, filter_In in X. destruct X as [X _]. apply str_in_spec in X. congruence. }
  pose proof (accepted_quiet "sonic" sn_tokens [(["sonic"], terms)] ["sonic"] terms t Tk Ck (or_introl eq_refl) (or_introl eq_refl) It Mf K1 K2 K3 K4 K5 K6) as Q.
  pose proof (unsupported_not_set "sonic" sn_tokens _ _ _ t Ck (or_introl eq_refl) (or_introl eq_refl) It Mf) as U.
  pose proof (sub_tokens_listed "sonic" sn_tokens _ _ _ t ["tcp-established"] Ck (or_introl eq_refl) (or_introl eq_refl) It Mf) as S.
  assert (Ns : forall s, str_in s (supported sn_tokens) = false -> ~ In s (supported sn_tokens)) by (intros s Hs X; apply str_in_spec in X; congruence).
  constructor; [exact K|exact Q| |].
  - intros w Iw. destruct S as (S & _); [intros [X|[]]; discriminate X|]. destruct (S eq_refl w Iw) as [<-|[]]. reflexivity.
  - destruct U as (_ & _ & _ & U4 & _ & U6 & _). split; [apply U4|apply U6]; apply Ns; reflexivity.
Qed.
