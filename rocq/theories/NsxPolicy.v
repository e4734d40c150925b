(** NSX-T security policies: terms and whole policies. *)
From Coq Require Import Lia ZifyBool ZifyNat.
From Verif Require Import SpecGce BaseFacts IPFacts PyStrFacts TextProofs PolicyProofs GenProofs GenProofs2 CiscoProofs CiscoProofs2 CiscoAcl GceProofs GceDecide QuietTerm IptAddr OpenConfigProofs JuniperProofs PfPolicy NsxProofs SpecNsx.
Local Open Scope string_scope.
Local Open Scope list_scope.
Local Open Scope Z_scope.

(** ** Terms *)
Definition nsx_kinds : list string := ["inet"; "inet6"; "mixed"].
(** The family a term is rendered for. *)
Definition term_family (kind : string) (t : term) : ver :=
  if String.eqb kind "inet6" || (String.eqb kind "mixed" && str_in "icmpv6" (t_protocol t)) then V6 else V4.
Lemma families_versions kind t : In kind nsx_kinds -> nsx_families kind (term_family kind t) = nsx_versions kind /\ In (nsx_versions kind) [[V4]; [V6]; [V4; V6]].
Proof. intros [<-|[<-|[<-|[]]]]; (split; [reflexivity|cbn; auto]). Qed.
Lemma nsx_meant t : ((some (t_platform t) && negb (str_in "nsxt" (t_platform t))) || (some (t_platform_exclude t) && str_in "nsxt" (t_platform_exclude t))) = false <-> meant_for "nsxt" t.
Proof.
  unfold meant_for. rewrite orb_false_iff. split.
  - intros (A & B). split.
    + destruct (t_platform t) as [|q l]; [left; reflexivity|]. right. cbn [some andb] in A. apply negb_false_iff, str_in_spec in A. exact A.
    + intros X. destruct (t_platform_exclude t) as [|q l]; [destruct X|]. cbn [some andb] in B. apply str_in_spec in X. congruence.
  - intros (A & B). split.
    + destruct A as [->|A]; [reflexivity|]. apply str_in_spec in A. rewrite A. apply andb_false_r.
    + destruct (str_in "nsxt" (t_platform_exclude t)) eqn:X; [apply str_in_spec in X; contradiction|apply andb_false_r].
Qed.
Lemma sides_spec kind t s d : In kind nsx_kinds -> nsx_term_ok (nsx_versions kind) t -> nsx_sides (nsx_versions kind) t = Ok (s, d) ->
  exists s4 s6 d4 d6, s = (s4, s6) /\ d = (d4, d6) /\ valid_list (s4 ++ s6) /\ valid_list (d4 ++ d6) /\ of_ver V4 s4 /\ of_ver V6 s6 /\ of_ver V4 d4 /\ of_ver V6 d6 /\
    ~ covered (s4 ++ s6) (V4, 0) /\ ~ covered (d4 ++ d6) (V4, 0) /\
    forall p, nsx_traffic kind p -> (grp (s4 ++ s6) (p_src p) <-> side_matches (t_source_address t) (t_source_address_exclude t) (p_src p)) /\
      (grp (d4 ++ d6) (p_dst p) <-> side_matches (t_destination_address t) (t_destination_address_exclude t) (p_dst p)).
Proof.
  intros Hk K H. destruct (families_versions kind t Hk) as (_ & Hv). unfold nsx_sides in H. cbv zeta in H.
  apply bind_ok in H. destruct H as (s4 & H1 & H). apply bind_ok in H. destruct H as (d4 & H2 & H). apply bind_ok in H. destruct H as (s6 & H3 & H). apply bind_ok in H. destruct H as (d6 & H4 & H).
  apply ok_inj, pair_equal_spec in H. destruct H as (<- & <-).
  destruct (side_spec _ _ _ _ _ _ Hv (nx_src _ _ K) H1 H3) as (A1 & A2 & A3 & A4 & A5 & A6).
  destruct (side_spec _ _ _ _ _ _ Hv (nx_dst _ _ K) H2 H4) as (B1 & B2 & B3 & B4 & B5 & B6).
  assert (Lv : forall l, valid_list l -> valid_list (nsx_listed l)) by (intros l V; unfold nsx_listed; destruct (nsx_any l); [constructor|exact V]).
  assert (Lo : forall l, of_ver V4 l -> of_ver V4 (nsx_listed l)) by (intros l V; unfold nsx_listed; destruct (nsx_any l); [intros n []|exact V]).
  exists (nsx_listed s4), s6, (nsx_listed d4), d6. split; [reflexivity|]. split; [reflexivity|].
  split; [apply Forall_app; split; [apply Lv, A1|exact A2]|]. split; [apply Forall_app; split; [apply Lv, B1|exact B2]|].
  split; [apply Lo, A3|]. split; [exact A4|]. split; [apply Lo, B3|]. split; [exact B4|]. split; [|split].
  - intros X. apply covered_app in X. destruct X as [X|X]; [|apply (of_ver_covered V6 _ _ A4) in X; discriminate X].
    unfold nsx_listed in X. destruct (nsx_any s4) eqn:An; [destruct X as (n & [] & _)|]. destruct (A6 X) as (_ & Z). unfold nsx_leave in Z. rewrite An in Z. cbn [negb] in Z. rewrite andb_true_r in Z.
    apply some_nil in Z. rewrite Z in X. destruct X as (n & [] & _).
  - intros X. apply covered_app in X. destruct X as [X|X]; [|apply (of_ver_covered V6 _ _ B4) in X; discriminate X].
    unfold nsx_listed in X. destruct (nsx_any d4) eqn:An; [destruct X as (n & [] & _)|]. destruct (B6 X) as (E & _). destruct X as (n & I & C).
    assert (Va : valid n) by (unfold valid_list in B1; rewrite Forall_forall in B1; apply B1, I).
    assert (N0 : naddr n = 0) by (destruct C as (_ & C), Va as (_ & Va & _); cbn [snd] in C; lia).
    pose proof I as J. rewrite E in J. apply of_version in J. destruct J as (J & Jv). apply (no_any _ B3 An n I N0). exact (nx_zero _ _ K n J Jv N0).
  - intros p T. destruct (nq_family _ _ T) as (F & Fi), (nq_src _ _ T) as (Os & Ns), (nq_dst _ _ T) as (Od & Nd).
    split; [apply A5; assumption|]. apply B5; [rewrite <- F; exact Fi|exact Od|exact Nd].
Qed.
Lemma verdict_actions a : assoc a nsx_actions = nsx_verdict a.
Proof.
  unfold nsx_actions, nsx_verdict. cbn [assoc str_in memb existsb]. destruct (String.eqb a "accept"); [reflexivity|]. destruct (String.eqb a "deny"); [reflexivity|].
  destruct (String.eqb a "reject"); [reflexivity|]. destruct (String.eqb a "reject-with-tcp-rst"); reflexivity.
Qed.
Definition rule_accepted (r : json) : Prop :=
  forall key s, In key ["source_groups"; "destination_groups"] -> one_of_texts key r (eq s) -> ~ range_has (V4, 0) s.
Lemma group_accepted l s : valid_list l -> ~ covered l (V4, 0) -> texts (nsx_group l) (eq s) -> ~ range_has (V4, 0) s.
Proof.
  intros V N (m & s' & E & I & <-) H. destruct (proj1 (group_texts l s)) as [(_ & ->)|(n & In_ & ->)]; [eauto|destruct (range_any _ H)|].
  apply N. exists n. split; [exact In_|]. unfold valid_list in V. rewrite Forall_forall in V. apply GceProofs.range_text in H; [exact H|apply V, In_|unfold on_net; cbn; lia].
Qed.
Lemma term_rule kind t a rest w r : In kind nsx_kinds -> nsx_term_ok (nsx_versions kind) t -> meant_for "nsxt" t -> quiet "nsxt" t ->
  t_action t = a :: rest -> nsx_verdict a = Some w -> nsx_term (kind, term_family kind t, t) = Ok r ->
  (forall p o, nsx_traffic kind p -> ((exists j, r = Some j /\ nsx_rule_says p j o) <-> term_matches t p /\ o = w)) /\
  (forall j, r = Some j -> rule_accepted j).
Proof.
  intros Hk K M Q Ea Ew H. unfold nsx_term in H. rewrite (proj2 (nsx_meant t) M) in H. destruct (families_versions kind t Hk) as (Fv & Hv).
  destruct (ver_eqb (term_family kind t) V6 && str_in "icmp" (t_protocol t) || ver_eqb (term_family kind t) V4 && str_in "icmpv6" (t_protocol t)) eqn:Ic.
  { apply ok_inj in H. subst r. split; [|discriminate]. intros p o T. split; [intros (j & X & _); discriminate X|]. intros (Mt & _). exfalso.
    rewrite (quiet_matches "nsxt" t p Q (nq_platform _ _ T)) in Mt. destruct Mt as (_ & _ & Mp & _). pose proof (nq_icmp _ _ T) as Ni. destruct (nq_family _ _ T) as (_ & Fi).
    apply orb_true_iff in Ic. unfold term_family in Ic.
    destruct Hk as [<-|[<-|[<-|[]]]]; cbn [String.eqb Ascii.eqb Bool.eqb orb andb ver_eqb] in Ic.
    - destruct Ic as [Ic|Ic]; [discriminate Ic|]. apply str_in_spec in Ic. pose proof (nx_icmp4 _ _ K eq_refl Ic) as E. rewrite E in Mp. destruct Fi as [Fi|[]]. rewrite <- Fi in Ni.
      destruct Mp as [X|(q & [<-|[]] & X)]; [discriminate X|]. apply Ni. exact X.
    - destruct Ic as [Ic|Ic]; [|discriminate Ic]. apply str_in_spec in Ic. pose proof (nx_icmp6 _ _ K eq_refl Ic) as E. rewrite E in Mp. destruct Fi as [Fi|[]]. rewrite <- Fi in Ni.
      destruct Mp as [X|(q & [<-|[]] & X)]; [discriminate X|]. apply Ni. exact X.
    - destruct (str_in "icmpv6" (t_protocol t)) eqn:E6; cbn [ver_eqb andb] in Ic.
      + apply str_in_spec in E6. destruct Ic as [Ic|Ic]; [|discriminate Ic]. apply str_in_spec in Ic. exact (nx_icmp _ _ K eq_refl E6 Ic).
      + destruct Ic as [Ic|Ic]; discriminate Ic. }
  destruct (some (t_verbatim t)); [discriminate H|]. rewrite (nx_option _ _ K), Ea in H. cbv zeta in H. rewrite verdict_actions, Ew, Fv in H.
  apply bind_ok in H. destruct H as ((s, d) & Hs & H). destruct (sides_spec kind t s d Hk K Hs) as (s4 & s6 & d4 & d6 & -> & -> & Vs & Vd & S4 & S6 & D4 & D6 & Zs & Zd & Sm).
  pose proof (mismatch_spec (String.eqb kind "mixed") s4 s6 d4 d6 S4 S6 D4 D6) as Mm. destruct (nsx_mismatch _ _ _) as [(src, dst)|].
  2: { apply ok_inj in H. subst r. split; [|discriminate]. intros p o T. split; [intros (j & X & _); discriminate X|]. intros (Mt & _). exfalso.
       rewrite (quiet_matches "nsxt" t p Q (nq_platform _ _ T)) in Mt. destruct Mt as (M1 & M2 & _). destruct (Sm p T) as (G1 & G2). apply (Mm (p_src p) (p_dst p) (proj1 (nq_family _ _ T))). tauto. }
  destruct Mm as (I1 & I2 & Mm). apply bind_ok in H. destruct H as (services & Hsv & H). apply ok_inj in H. subst r.
  assert (Vsrc : valid_list src) by (unfold valid_list in *; rewrite Forall_forall in *; intros n I; apply Vs, I1, I).
  assert (Vdst : valid_list dst) by (unfold valid_list in *; rewrite Forall_forall in *; intros n I; apply Vd, I2, I).
  assert (Csrc : ~ covered src (V4, 0)) by (intros (n & I & C); apply Zs; exists n; auto).
  assert (Cdst : ~ covered dst (V4, 0)) by (intros (n & I & C); apply Zd; exists n; auto).
  (* services *)
  assert (Sv : forall p, nsx_traffic kind p -> if_given (assoc "service_entries" services) (fun j => exists l, j = JList l /\ (l = [] \/ exists e, In e l /\ entry_says p e)) <->
    any_or (t_protocol t) (eq (p_proto p)) /\ ports_match (t_source_port t) (p_sport p) /\ ports_match (t_destination_port t) (p_dport p) /\ any_or (t_icmp_type t) (eq (p_icmp_type p))).
  { intros p T. assert (Np : forall q, In q (t_protocol t) -> ~ In q ["tcp"; "udp"] -> t_source_port t = [] /\ t_destination_port t = []).
    { intros q Iq Nq. destruct (nil_or_not (t_source_port t)) as [E1|N1]; [|destruct (nx_ports _ _ K (or_introl N1)) as (_ & X); destruct (Nq (X q Iq))].
      destruct (nil_or_not (t_destination_port t)) as [E2|N2]; [|destruct (nx_ports _ _ K (or_intror N2)) as (_ & X); destruct (Nq (X q Iq))]. auto. }
    destruct (nil_or_not (t_protocol t)) as [E0|N0].
    - rewrite E0 in Hsv. cbn [some] in Hsv. apply ok_inj in Hsv. subst services. cbn [assoc if_given].
      assert (P1 : t_source_port t = []). { destruct (nil_or_not (t_source_port t)) as [E|N]; [exact E|]. destruct (nx_ports _ _ K (or_introl N)) as (X & _). contradiction. }
      assert (P2 : t_destination_port t = []). { destruct (nil_or_not (t_destination_port t)) as [E|N]; [exact E|]. destruct (nx_ports _ _ K (or_intror N)) as (X & _). contradiction. }
      rewrite E0, P1, P2. split; [intros _|intros _; exact Logic.I]. split; [left; reflexivity|]. split; [left; reflexivity|]. split; [left; reflexivity|].
      destruct (nil_or_not (t_icmp_type t)) as [E|N]; [left; exact E|]. exfalso.
      exact (nx_types _ _ K N E0).
    - rewrite (proj2 (some_not_nil _) N0) in Hsv. apply bind_ok in Hsv. destruct Hsv as (types & Ht & Hsv). apply ok_inj in Hsv. subst services.
      cbn [assoc]. change (String.eqb "service_entries" "service_entries") with true. cbv iota. cbn [if_given].
      destruct (types_spec _ t types p Ht) as (Ti & Tn & Tm). set (ts := match types with Some l => l | None => [] end) in *.
      pose proof (fun q (I : In q (t_protocol t)) => service_spec q (t_source_port t) (t_destination_port t) ts p (nx_protocol _ _ K q I) (nx_range _ _ K)) as Ss.
      assert (Ty : forall q, In q (t_protocol t) -> p_proto p = q -> ((forall v : ver, q = (match v with V4 => "icmp" | V6 => "icmpv6" end) -> ts = [] \/ exists k, In k ts /\ In (p_icmp_type p, k) (icmp_types_of v)) <-> any_or (t_icmp_type t) (eq (p_icmp_type p)))).
      { intros q Iq Eq. destruct (nil_or_not (t_icmp_type t)) as [E|N].
        - assert (Et : ts = []) by (unfold ts; rewrite (Tn E); reflexivity). rewrite E, Et. split; [left; reflexivity|auto].
        - rewrite <- Tm. pose proof (Ti N) as Ep. rewrite Ep in Iq. destruct Iq as [<-|[]]. split.
          + intros X. exact (X _ eq_refl).
          + intros X v Ev. destruct v, (term_family kind t); try discriminate Ev; exact X. }
      assert (Po : forall q, In q (t_protocol t) -> ((In q ["tcp"; "udp"] -> ports_match (t_source_port t) (p_sport p) /\ ports_match (t_destination_port t) (p_dport p)) <-> ports_match (t_source_port t) (p_sport p) /\ ports_match (t_destination_port t) (p_dport p))).
      { intros q Iq. destruct (in_dec string_dec q ["tcp"; "udp"]) as [I|N]; [tauto|]. destruct (Np q Iq N) as (-> & ->). split; [|auto]. intros _. split; left; reflexivity. }
      split.
      + intros (l & E & S). assert (El : l = flat_map (fun q => nsx_service (assoc q proto_map) (t_source_port t) (t_destination_port t) ts) (t_protocol t)) by congruence. subst l.
        destruct S as [S|(e & I & S)].
        * exfalso. destruct (t_protocol t) as [|q l] eqn:Eq; [congruence|]. cbn [flat_map] in S. apply app_eq_nil in S. destruct (Ss q (or_introl eq_refl)) as (_ & X). exact (X (proj1 S)).
        * apply in_flat_map in I. destruct I as (q & Iq & I). destruct (proj1 (proj1 (Ss q Iq))) as (E1 & E2 & E3); [eauto|].
          split; [right; exists q; auto|]. destruct (proj1 (Po q Iq) E2) as (E4 & E5). split; [exact E4|]. split; [exact E5|]. apply (Ty q Iq E1). exact E3.
      + intros (Mp & P1 & P2 & P3). eexists. split; [reflexivity|]. right. destruct Mp as [X|(q & Iq & Eq)]; [contradiction|].
        destruct (proj2 (proj1 (Ss q Iq))) as (e & I & S).
        { split; [exact Eq|]. split; [auto|]. apply (Ty q Iq Eq). exact P3. }
        exists e. split; [apply in_flat_map; exists q; auto|exact S]. }
  match goal with |- context[Some ?j = Some _] => set (j0 := j) end.
  assert (Ps : path ["source_groups"] j0 = Some (nsx_group src)) by reflexivity.
  assert (Pd : path ["destination_groups"] j0 = Some (nsx_group dst)) by reflexivity.
  assert (Pe : path ["service_entries"] j0 = assoc "service_entries" services).
  { unfold j0. cbn [path]. match goal with |- match ?m with _ => _ end = ?n => change m with n; destruct n; reflexivity end. }
  split.
  - intros p o T. rewrite (quiet_matches "nsxt" t p Q (nq_platform _ _ T)), (nx_option _ _ K). destruct (Sm p T) as (G1 & G2). rewrite <- G1, <- G2.
    pose proof (Mm (p_src p) (p_dst p) (proj1 (nq_family _ _ T))) as Gm. specialize (Sv p T).
    assert (Gs : one_of_texts "source_groups" j0 (group_says (p_src p)) <-> grp src (p_src p)).
    { unfold one_of_texts. rewrite Ps. rewrite <- (group_says_grp src (p_src p) Vsrc (proj1 (nq_src _ _ T))). split; [intros (j & E & X); congruence|intros X; eexists; split; [reflexivity|exact X]]. }
    assert (Gd : one_of_texts "destination_groups" j0 (group_says (p_dst p)) <-> grp dst (p_dst p)).
    { unfold one_of_texts. rewrite Pd. rewrite <- (group_says_grp dst (p_dst p) Vdst (proj1 (nq_dst _ _ T))). split; [intros (j & E & X); congruence|intros X; eexists; split; [reflexivity|exact X]]. }
    assert (Fa : exists s, is_text "ip_protocol" j0 s /\ family_says (fst (p_src p)) s).
    { eexists. split; [reflexivity|]. destruct (nq_family _ _ T) as (_ & Fi). unfold family_says.
      destruct Hk as [<-|[<-|[<-|[]]]]; [destruct Fi as [<-|[]]; left; auto|destruct Fi as [<-|[]]; right; left; auto|right; right; reflexivity]. }
    unfold nsx_rule_says, service_says, given. split.
    + intros (j & E & S). assert (j = j0) by congruence. subst j. rewrite Gs, Gd, Pe, Sv in S. destruct S as (_ & S1 & _ & _ & _ & _ & S2 & S3 & _ & S4' & S5 & S6' & S7).
      assert (o = w) by (unfold is_text in S1; change (path ["action"] j0) with (Some (JStr w)) in S1; congruence). split; [|assumption].
      destruct (proj1 Gm (conj S2 S3)) as (X1 & X2). split; [exact X1|]. split; [exact X2|]. split; [exact S4'|]. split; [exact S5|]. split; [exact S6'|]. split; [intros o' []|exact S7].
    + intros ((M1 & M2 & M3 & M4 & M5 & _ & M7) & ->). exists j0. split; [reflexivity|]. rewrite Gs, Gd, Pe, Sv. destruct (proj2 Gm (conj M1 M2)) as (X1 & X2).
      repeat (split; [first [reflexivity|assumption|exact Fa]|]). exact M7.
  - intros j E. assert (j = j0) by congruence. subst j. intros key s0 Ik (jj & Ej & Tx).
    destruct Ik as [<-|[<-|[]]]; [rewrite Ps in Ej; apply (group_accepted src s0 Vsrc Csrc)|rewrite Pd in Ej; apply (group_accepted dst s0 Vdst Cdst)]; congruence.
Qed.

(** ** Policies *)
Lemma renamed_ok vs n t : nsx_term_ok vs t -> nsx_term_ok vs (set_name n t).
Proof. intros [A B C D E F G H I J K L]. constructor; assumption. Qed.
Lemma renamed_quiet platform n t : quiet platform t -> quiet platform (set_name n t).
Proof. intros [A B C D E F G H I J]. constructor; assumption. Qed.
Definition rules_of (r : option json) : list json := match r with Some j => [j] | None => [] end.
Definition term_block (today : Z) (kind : string) (t : term) (b : list json) : Prop :=
  (forall p o, nsx_traffic kind p -> ((exists j, In j b /\ nsx_rule_says p j o) <-> nsx_term_says today p t o)) /\ forall j, In j b -> rule_accepted j.
Lemma no_block today kind t : (forall p o, ~ nsx_term_says today p t o) -> term_block today kind t [].
Proof. intros H. split; [|intros j []]. intros p o _. split; [intros (j & [] & _)|intros S; destruct (H p o S)]. Qed.
Lemma terms_blocks today filters ts kind : In kind nsx_kinds -> check_tokens "nsxt" default_tokens filters = Ok tt -> In (["nsxt"], ts) filters ->
  nsx_terms_ok today kind ts ->
  forall terms seen es rs, incl terms ts -> nsx_terms today kind seen terms = Ok es -> mapM nsx_term es = Ok rs ->
  exists blocks, Forall2 (term_block today kind) terms blocks /\ flat_map rules_of rs = concat blocks.
Proof.
  intros Hk Ck If K. induction terms as [|t terms IH]; intros seen es rs Inc H Hm; cbn [nsx_terms] in H.
  - apply ok_inj in H. subst es. cbn [mapM] in Hm. apply ok_inj in Hm. subst rs. exists []. split; [constructor|reflexivity].
  - assert (Inc' : incl terms ts) by (intros x I; apply Inc; right; exact I). assert (It : In t ts) by (apply Inc; left; reflexivity).
    destruct (str_in (t_name t) seen); [discriminate H|]. cbv zeta in H.
    assert (Skip : (forall p o, ~ nsx_term_says today p t o) -> nsx_terms today kind (t_name t :: seen) terms = Ok es ->
      exists blocks, Forall2 (term_block today kind) (t :: terms) blocks /\ flat_map rules_of rs = concat blocks).
    { intros N H'. destruct (IH _ _ _ Inc' H' Hm) as (blocks & F & E). exists ([] :: blocks). split; [constructor; [apply no_block, N|exact F]|exact E]. }
    destruct (expired today t) eqn:Ex.
    { apply Skip; [|exact H]. intros p o (Fo & _). apply expired_force in Fo. congruence. }
    destruct (t_action t) as [|a rest] eqn:Ea; [discriminate H|]. rewrite verdict_actions in H.
    destruct (nsx_verdict a) as [w|] eqn:Ew.
    2: { apply Skip; [|exact H]. intros p o (_ & _ & _ & _ & a' & r' & E & X). rewrite Ea in E. injection E as <- <-. congruence. }
    clear Skip. apply bind_ok in H. destruct H as (n & _ & H). fold (term_family kind t) in H.
    apply bind_ok in H. destruct H as (t' & Hh & H). apply bind_ok in H. destruct H as (more & Hmore & H). apply ok_inj in H. subst es.
    cbn [mapM] in Hm. apply bind_ok in Hm. destruct Hm as (r & Hr & Hm). apply bind_ok in Hm. destruct Hm as (rs' & Hrs & Hm). apply ok_inj in Hm. subst rs.
    destruct (IH _ _ _ Inc' Hmore Hrs) as (blocks & F & E). exists (rules_of r :: blocks). split; [constructor; [|exact F]|cbn [flat_map concat]; rewrite E; reflexivity].
    apply fix_high_ports_spec in Hh. destruct Hh as (_ & _ & Hh).
    assert (Same : t_platform t' = t_platform t /\ t_platform_exclude t' = t_platform_exclude t /\ t_option t' = t_option t).
    { destruct Hh as [(_ & ->)|[(_ & X & _)|(_ & _ & ->)]]; [auto|discriminate X|auto]. }
    destruct Same as (Sp & Sx & So).
    destruct ((some (t_platform t) && negb (str_in "nsxt" (t_platform t))) || (some (t_platform_exclude t) && str_in "nsxt" (t_platform_exclude t))) eqn:Mt.
    { unfold nsx_term in Hr. rewrite Sp, Sx, Mt in Hr. apply ok_inj in Hr. subst r. apply no_block. intros p o (_ & M & _). apply nsx_meant in M. congruence. }
    apply nsx_meant in Mt.
    destruct (str_in "established" (t_option t) || str_in "tcp-established" (t_option t)) eqn:Es.
    { assert (Er : r = None).
      { unfold nsx_term in Hr. destruct (_ || _) in Hr; [apply ok_inj in Hr; auto|]. destruct (_ || _) in Hr; [apply ok_inj in Hr; auto|]. destruct (some (t_verbatim t')); [discriminate Hr|].
        rewrite So in Hr. destruct (t_option t) as [|o l]; [discriminate Es|]. destruct (_ || _) in Hr; [apply ok_inj in Hr; auto|discriminate Hr]. }
      subst r. apply no_block. intros p o (_ & _ & (N1 & N2) & _). apply orb_true_iff in Es. destruct Es as [Es|Es]; apply str_in_spec in Es; contradiction. }
    apply orb_false_iff in Es. destruct Es as (E1 & E2). assert (Ne : not_established t) by (split; intros X; apply str_in_spec in X; congruence).
    assert (Fo : in_force today t) by (apply expired_force, Ex). pose proof (K t It Fo Mt Ne) as Kt.
    assert (Et : t' = set_name n t).
    { destruct Hh as [(_ & X)|[(_ & X & _)|((o & I & _) & _)]]; [exact X|discriminate X|]. change (t_option (set_name n t)) with (t_option t) in I. rewrite (nx_option _ _ Kt) in I. destruct I. }
    subst t'. destruct (nx_warned _ _ Kt) as (A1 & A2 & A3 & A4 & A5 & A6).
    assert (Q : quiet "nsxt" t) by (apply (accepted_quiet "nsxt" default_tokens filters ["nsxt"] ts t); try assumption; [auto|left; reflexivity]).
    destruct (term_rule kind (set_name n t) a rest w r Hk (renamed_ok _ _ _ Kt) Mt (renamed_quiet _ _ _ Q) Ea Ew Hr) as (S & A). split.
    + intros p o T. specialize (S p o T). change (term_matches (set_name n t) p) with (term_matches t p) in S. unfold nsx_term_says. split.
      * intros (j & I & X). destruct r as [j'|]; [|destruct I]. destruct I as [<-|[]]. destruct (proj1 S) as (S1 & ->); [eauto|]. repeat (split; [assumption|]). exists a, rest. auto.
      * intros (_ & _ & _ & S1 & a' & r' & Ea' & Ew'). rewrite Ea in Ea'. injection Ea' as <- <-. destruct (proj2 S) as (j & -> & X); [split; [exact S1|congruence]|]. exists j. split; [left; reflexivity|exact X].
    + intros j I. destruct r as [j'|]; [|destruct I]. destruct I as [<-|[]]. apply A. reflexivity.
Qed.
Lemma translate_none today shared fs : (forall f, In f fs -> fst (fst f) = None) -> nsx_translate today shared fs = Ok ([], shared).
Proof.
  induction fs as [|(h, terms) fs IH]; intros H; [reflexivity|]. cbn [nsx_translate]. pose proof (H (h, terms) (or_introl eq_refl)) as E; cbn [fst] in E; rewrite E. apply IH. intros f I. apply H. right. exact I.
Qed.
Lemma translate_skip today shared before fs : (forall f, In f before -> fst (fst f) = None) -> nsx_translate today shared (before ++ fs) = nsx_translate today shared fs.
Proof.
  induction before as [|(h, terms) before IH]; intros H; [reflexivity|]. cbn [nsx_translate app]. pose proof (H (h, terms) (or_introl eq_refl)) as E; cbn [fst] in E; rewrite E. apply IH. intros f I. apply H. right. exact I.
Qed.
Lemma parse_kind opts o : nsx_parse opts = Ok o -> In (no_kind o) nsx_kinds /\ exists name more, opts = name :: no_kind o :: more /\ no_name o = name /\
  no_id o = (match more with x :: _ => if String.eqb x "securitygroup" then None else Some x | [] => None end).
Proof.
  unfold nsx_parse. destruct opts as [|name [|kind more]]; try discriminate. destruct (3 <? List.length more)%nat; [discriminate|]. destruct (str_in kind ["inet"; "inet6"; "mixed"]) eqn:Ek; [|discriminate].
  cbn [negb]. cbv zeta. intros H. apply bind_ok in H. destruct H as (scope & _ & H). apply ok_inj in H. subst o. cbn [no_kind no_name no_id]. apply str_in_spec in Ek. split; [exact Ek|]. eauto.
Qed.
Theorem nsx_decides_spec today shared fs name kind more terms j : nsx_asks fs name kind more terms -> nsx_policy today shared fs = Ok j -> nsx_terms_ok today kind terms ->
  nsx_accepted j /\ forall p o, nsx_traffic kind p -> (nsx_decides j p o <-> first_says (nsx_term_says today p) terms o).
Proof.
  intros (before & comment & after & -> & N) H K. unfold nsx_policy, nsx_new in H. apply bind_ok in H. destruct H as ((obj, shared') & H & Hs).
  apply bind_ok in H. destruct H as ([] & Ck & H). rewrite translate_skip in H by (intros f I; apply N, in_app_iff; auto). cbn [nsx_translate fst snd] in H.
  apply bind_ok in H. destruct H as (o0 & Ho & H). apply bind_ok in H. destruct H as (es & He & H). rewrite translate_none in H by (intros f I; apply N, in_app_iff; auto). cbn [bind] in H.
  apply ok_inj, pair_equal_spec in H. destruct H as (<- & <-). cbn [nsx_str] in Hs. apply bind_ok in Hs. destruct Hs as (rs & Hr & Hs). apply ok_inj in Hs.
  destruct (parse_kind _ _ Ho) as (Hk & nm & mr & E & _). injection E as _ Ek _. rewrite <- Ek in *.
  assert (If : In (["nsxt"], terms) (map (fun f : (option (list string) * list string) * list term => (match fst (fst f) with Some _ => ["nsxt"] | None => [] end, snd f)) (before ++ (Some (name :: kind :: more), comment, terms) :: after))).
  { apply in_map_iff. exists (Some (name :: kind :: more), comment, terms). split; [reflexivity|]. apply in_app_iff. right. left. reflexivity. }
  destruct (terms_blocks today _ terms kind Hk Ck If K terms [] es rs (incl_refl _) He Hr) as (blocks & F & Eb).
  assert (Pj : path ["rules"] j = Some (JList (concat blocks))) by (rewrite <- Eb, <- Hs; reflexivity). split.
  - intros l r key s L Ir. unfold nsx_rules in L. rewrite Pj in L. injection L as <-. apply in_concat in Ir. destruct Ir as (b & Ib & Ir).
    destruct (NamingProofs.Forall2_in_r _ _ _ _ F Ib) as (t & _ & (_ & A)). exact (A r Ir key s).
  - intros p o T. unfold nsx_decides, nsx_rules. rewrite Pj.
    assert (Eq : first_says (nsx_rule_says p) (concat blocks) o <-> first_says (nsx_term_says today p) terms o).
    { apply first_says_blocks. clear - F T. induction F as [|t b terms blocks (B & _) F IH]; constructor; [|exact IH]. split; [intros o; apply B, T|].
      intros o o' (_ & _ & _ & _ & a & r & E & W) (_ & _ & _ & _ & a' & r' & E' & W'). rewrite E in E'. injection E' as <- <-. congruence. }
    rewrite <- Eq. split; [intros (l & L & S); injection L as <-; exact S|intros S; eauto].
Qed.
