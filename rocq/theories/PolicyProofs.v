(** Proofs about terms: flattening, containment, shading, clean-up, sanity checks. *)
From Coq Require Import Lia ZifyBool ZifyNat Permutation.
From Verif Require Import SpecPolicy BaseFacts PyStrFacts IPFacts CollapseProofs CollapseMore ExcludeProofs
  TokenProofs PortProofs PortNameProofs.
Local Open Scope Z_scope.
Local Open Scope list_scope.

Lemma some_false {A} (l : list A) : some l = false <-> l = [].
Proof. destruct l; simpl; split; congruence. Qed.
Lemma some_true {A} (l : list A) : some l = true <-> l <> [].
Proof. destruct l; simpl; split; congruence. Qed.

(** ** Flattening *)

(** What flattening leaves of one side: [fin] is whether the term has any exclusion. *)
Definition flat_side (anyx : bool) (inc exc flat : list net) : Prop :=
  valid_list flat /\
  (anyx = false -> exc = [] /\ flat = inc) /\
  (anyx = true -> exc = [] -> flat = []) /\
  (anyx = true -> exc <> [] -> forall x, covered flat x <-> covered inc x /\ ~ covered exc x).
Definition new_side (inc exc flat : list net) : list net := if some exc then flat else inc.

Definition any_exclude (t : term) : bool :=
  some (t_source_address_exclude t) || some (t_destination_address_exclude t) || some (t_address_exclude t).

Lemma exclude_ok inc exc : subtractable inc exc -> exc <> [] ->
  exists r, address_list_exclude inc exc false = Ok r /\ valid_list r /\
    forall x, covered r x <-> covered inc x /\ ~ covered exc x.
Proof.
  intros (Vi & Ve & [H|(H1 & H2 & H3)]) Hn; [congruence|].
  destruct inc as [|a inc].
  - apply exclude_nocollapse_partial with V4; try assumption. constructor.
  - apply exclude_nocollapse_partial with (nver a); try assumption.
    apply Forall_forall. intros n Hn'. apply H1; [assumption|left; reflexivity].
Qed.

(** Flattening succeeds, and this is its result. *)
Lemma flatten_shape t : flat_term t -> exists fa fs fd,
  flatten_all t = Ok (
    set_flattened_addr fa (set_flattened_saddr fs (set_flattened_daddr fd
      (set_address (new_side (t_address t) (t_address_exclude t) fa)
        (set_source_address (new_side (t_source_address t) (t_source_address_exclude t) fs)
          (set_destination_address (new_side (t_destination_address t) (t_destination_address_exclude t) fd)
            (set_flattened true t))))))) /\
  flat_side (any_exclude t) (t_address t) (t_address_exclude t) fa /\
  flat_side (any_exclude t) (t_source_address t) (t_source_address_exclude t) fs /\
  flat_side (any_exclude t) (t_destination_address t) (t_destination_address_exclude t) fd.
Proof.
  intros (_ & Ea & Es & Ed & Sa & Ss & Sd). unfold flatten_all, any_exclude.
  assert (S3 : forall inc exc, subtractable inc exc -> exists r, flat_side true inc exc r /\
    ((some exc = true /\ address_list_exclude inc exc false = Ok r) \/ (some exc = false /\ r = []))).
  { intros inc exc H. destruct (some exc) eqn:E.
    - apply some_true in E. destruct (exclude_ok inc exc H E) as (r & R & V & C). exists r. split; [|auto].
      split; [assumption|]. split; [discriminate|]. split; [congruence|auto].
    - apply some_false in E. subst. exists []. split; [|auto]. split; [constructor|].
      split; [discriminate|]. split; [reflexivity|congruence]. }
  change (t_source_address_exclude (set_flattened true t)) with (t_source_address_exclude t).
  change (t_destination_address_exclude (set_flattened true t)) with (t_destination_address_exclude t).
  change (t_address_exclude (set_flattened true t)) with (t_address_exclude t).
  destruct (some (t_source_address_exclude t) || some (t_destination_address_exclude t) || some (t_address_exclude t)) eqn:E;
    cbn [negb].
  - destruct (S3 _ _ Ss) as (rs & Fs & Hs), (S3 _ _ Sd) as (rd & Fd & Hd), (S3 _ _ Sa) as (ra & Fa & Ha).
    exists ra, rs, rd. unfold new_side.
    assert (B : forall (A B : Type) (a : A) (f : A -> res B), bind (Ok a) f = f a) by reflexivity.
    destruct Hs as [[Hs Rs]|[Hs Rs]]; rewrite Hs;
    [change (t_source_address (set_flattened true t)) with (t_source_address t); rewrite Rs|]; rewrite !B;
    (match goal with |- context [bind (if some (t_destination_address_exclude ?u) then _ else _) _] =>
       change (t_destination_address_exclude u) with (t_destination_address_exclude t);
       change (t_destination_address u) with (t_destination_address t) end);
    (destruct Hd as [[Hd Rd]|[Hd Rd]]; rewrite Hd, ?Rd; rewrite !B);
    (match goal with |- (if some (t_address_exclude ?u) then _ else _) = _ /\ _ =>
       change (t_address_exclude u) with (t_address_exclude t);
       change (t_address u) with (t_address t) end);
    (destruct Ha as [[Ha Ra]|[Ha Ra]]; rewrite Ha, ?Ra; rewrite ?B); subst;
    (split; [destruct t; cbn in *; subst; reflexivity|]); auto.
  - apply orb_false_iff in E. destruct E as [E E3]. apply orb_false_iff in E. destruct E as [E1 E2].
    apply some_false in E1, E2, E3. exists (t_address t), (t_source_address t), (t_destination_address t).
    unfold new_side. rewrite E1, E2, E3. cbn [some].
    split; [destruct t; cbn in *; subst; reflexivity|].
    split; [|split]; (split; [first [apply Sa|apply Ss|apply Sd]|]);
      (split; [auto|]); split; discriminate.
Qed.

(** ** Containment *)

Lemma chk_addr sup sub : valid_list sup -> valid_list sub -> check_address_is_contained sup sub = true ->
  sup = [] \/ (sub <> [] /\ forall x, covered sub x -> covered sup x).
Proof.
  intros Vs Vb H. destruct sup as [|s sup]; [left; reflexivity|right].
  destruct sub as [|b sub]; [discriminate H|]. split; [discriminate|].
  cbn [check_address_is_contained] in H. rewrite forallb_forall in H.
  intros x (n & Hn & Hx). specialize (H n Hn). apply existsb_exists in H. destruct H as (m & Hm & H).
  unfold valid_list in *. rewrite Forall_forall in Vs, Vb.
  apply subnet_of_spec in H; auto. exists m. split; [assumption|]. apply H. assumption.
Qed.

Lemma later_side anyx inc exc flat : flat_side anyx inc exc flat ->
  (flat <> [] -> ~ (inc = [] /\ exc = [])) /\
  forall x, side_matches inc exc x -> flat = [] \/ covered flat x.
Proof.
  intros (V & H0 & H1 & H2). split.
  - intros Hf [-> ->]. destruct anyx; [apply Hf, H1; reflexivity|]. destruct (H0 eq_refl). congruence.
  - intros x [Hi He]. destruct anyx.
    + destruct exc as [|e exc]; [left; apply H1; reflexivity|]. destruct Hi as [->|Hi].
      * left. destruct flat as [|f flat]; [reflexivity|exfalso].
        assert (C : covered (f :: flat) (nver f, naddr f)).
        { exists f. split; [left; reflexivity|]. split; [reflexivity|].
          unfold valid_list in V. rewrite Forall_forall in V. pose proof (V f (or_introl eq_refl)) as Vf.
          pose proof (size_pos f ltac:(apply Vf)). simpl. lia. }
        apply H2 in C; [|reflexivity|discriminate]. destruct C as [C _]. apply covered_nil in C. exact C.
      * right. apply H2; [reflexivity|discriminate|auto].
    + destruct (H0 eq_refl) as [-> ->]. exact Hi.
Qed.

Definition full_side (anyx : bool) (inc exc : list net) : Prop :=
  anyx = true -> (inc = [] /\ exc = []) \/ (exc <> [] /\ something_left inc exc).
Lemma earlier_side anyx inc exc flat : flat_side anyx inc exc flat -> full_side anyx inc exc ->
  (flat = [] -> inc = [] /\ exc = []) /\
  (forall x, covered flat x -> side_matches inc exc x).
Proof.
  intros (V & H0 & H1 & H2) F. destruct anyx.
  - specialize (F eq_refl). destruct F as [[-> ->]|[Hn [y Hy]]].
    + rewrite (H1 eq_refl eq_refl). split; [auto|]. intros x H. apply covered_nil in H. destruct H.
    + specialize (H2 eq_refl Hn). split.
      * intros ->. apply H2 in Hy. apply covered_nil in Hy. destruct Hy.
      * intros x Hx. apply H2 in Hx. split; [right|]; tauto.
  - destruct (H0 eq_refl) as [-> ->]. split; [auto|]. intros x Hx. split; [right; assumption|].
    intros H. apply covered_nil in H. exact H.
Qed.

Lemma plain_or_full_sides t : plain_or_full t ->
  full_side (any_exclude t) (t_address t) (t_address_exclude t) /\
  full_side (any_exclude t) (t_source_address t) (t_source_address_exclude t) /\
  full_side (any_exclude t) (t_destination_address t) (t_destination_address_exclude t).
Proof.
  intros [(E1 & E2 & E3)|H].
  - unfold any_exclude. rewrite E1, E2, E3. cbn [some orb]. repeat split; intros E; discriminate E.
  - split; [|split]; intros _; apply H; simpl; auto.
Qed.

Lemma contains_addr_sound e l e1 l1 : flat_term e -> flat_term l -> plain_or_full e ->
  flatten_all e = Ok e1 -> flatten_all l = Ok l1 -> contains_addresses e1 l1 = true ->
  forall p, addresses_match l p -> addresses_match e p.
Proof.
  intros Fe Fl Pe He Hl H p.
  destruct (flatten_shape e Fe) as (fa & fs & fd & R & SA & SS & SD). rewrite R in He. injection He as <-.
  destruct (flatten_shape l Fl) as (ga & gs & gd & R' & TA & TS & TD). rewrite R' in Hl. injection Hl as <-.
  destruct (plain_or_full_sides e Pe) as (PA & PS & PD).
  destruct (earlier_side _ _ _ _ SA PA) as [EA1 EA2]. destruct (earlier_side _ _ _ _ SS PS) as [ES1 ES2].
  destruct (earlier_side _ _ _ _ SD PD) as [ED1 ED2].
  destruct (later_side _ _ _ _ TA) as [LA1 LA2]. destruct (later_side _ _ _ _ TS) as [LS1 LS2].
  destruct (later_side _ _ _ _ TD) as [LD1 LD2].
  assert (H' : (check_address_is_contained fa ga || check_address_is_contained fa gs
   || check_address_is_contained fa gd)
  && (check_address_is_contained ga fs && check_address_is_contained ga fd)
  && check_address_is_contained fs gs && check_address_is_contained fd gd = true) by exact H. clear H R R'.
  apply andb_true_iff in H'. destruct H' as [H' HD]. apply andb_true_iff in H'. destruct H' as [H' HS].
  apply andb_true_iff in H'. destruct H' as [HA _].
  pose proof (proj1 SA) as VA. pose proof (proj1 SS) as VS. pose proof (proj1 SD) as VD.
  pose proof (proj1 TA) as WA. pose proof (proj1 TS) as WS. pose proof (proj1 TD) as WD.
  intros (MA & MS & MD). split; [|split].
  - apply orb_true_iff in HA. rewrite orb_true_iff in HA. destruct HA as [[HA|HA]|HA]; apply chk_addr in HA; auto;
    (destruct HA as [HA|[Hn HA]]; [left; apply EA1; assumption|]).
    + destruct MA as [MA|[MA|MA]]; [destruct (LA1 Hn MA)|right; left|right; right];
      apply EA2, HA; destruct (LA2 _ MA); tauto.
    + right; left. apply EA2, HA. destruct (LS2 _ MS); tauto.
    + right; right. apply EA2, HA. destruct (LD2 _ MD); tauto.
  - apply chk_addr in HS; auto. destruct HS as [HS|[Hn HS]].
    + destruct (ES1 HS) as [-> ->]. split; [left; reflexivity|]. intros C. apply covered_nil in C. exact C.
    + apply ES2, HS. destruct (LS2 _ MS); tauto.
  - apply chk_addr in HD; auto. destruct HD as [HD|[Hn HD]].
    + destruct (ED1 HD) as [-> ->]. split; [left; reflexivity|]. intros C. apply covered_nil in C. exact C.
    + apply ED2, HD. destruct (LD2 _ MD); tauto.
Qed.

Lemma not_longer_back {A} (a b : list A) : not_longer a b -> incl b a -> incl a b.
Proof. intros [H1 H2] H. apply NoDup_length_incl; assumption. Qed.

Lemma contains_protocol_sound e l : comparable e l -> contains_protocol e l = true ->
  forall p, protocols_match l p -> protocols_match e p.
Proof.
  intros C H p [M1 M2]. unfold contains_protocol in H. apply andb_true_iff in H. destruct H as [_ H].
  destruct (t_protocol e) as [|q qs] eqn:Eq.
  - cbn [some] in H. split; [left; assumption|]. destruct (t_protocol_except e) as [|x xs] eqn:Ex; cbn [some] in H.
    + intros a [].
    + rewrite <- Ex in H. destruct (t_protocol_except l) as [|y ys] eqn:Ey; cbn [some] in H.
      * destruct (t_protocol l) as [|z zs] eqn:Ez; cbn [some] in H; [discriminate|].
        destruct M1 as [M1|(a & Ha & M1)]; [discriminate M1|].
        rewrite forallb_forall in H. specialize (H a Ha). intros b Hb Eb. subst a b.
        rewrite <- Ex in Hb. apply str_in_spec in Hb. rewrite Hb in H. discriminate.
      * assert (H' : forall a, In a (y :: ys) -> In a (t_protocol_except e)).
        { rewrite Ex in H. cbn [check_protocol_is_contained] in H. rewrite forallb_forall in H.
          intros a Ha. rewrite Ex. apply str_in_spec. apply H. assumption. }
        destruct (cmp_protocol_except _ _ C) as [N|N]; [|rewrite Ey in N; discriminate].
        rewrite Ey in N. pose proof (not_longer_back _ _ N H') as B. rewrite Ex in B.
        intros a Ha. apply M2. apply B. assumption.
  - cbn [some] in H. apply andb_true_iff in H. destruct H as [H1 H]. apply some_true in H1.
    assert (H' : incl (t_protocol e) (t_protocol l)).
    { rewrite Eq. destruct (t_protocol l) as [|z zs]; [congruence|]. cbn [check_protocol_is_contained] in H.
      rewrite forallb_forall in H. intros a Ha. apply str_in_spec, H, Ha. }
    pose proof (not_longer_back _ _ (cmp_protocol _ _ C) H') as B.
    split.
    + right. destruct M1 as [M1|(a & Ha & M1)]; [congruence|]. exists a. split; [apply B|]; assumption.
    + destruct (cmp_one_of _ _ C) as [N|N]; [congruence|]. rewrite N. intros a [].
Qed.

Lemma ports_contained_match sup sub p : check_port_is_contained sup sub = true -> ports_match sub p -> ports_match sup p.
Proof. intros H. apply port_contained_sound. assumption. Qed.

Lemma contains_ports_sound e l : contains_ports e l = true ->
  forall p, all_ports_match l p -> all_ports_match e p.
Proof.
  unfold contains_ports. intros H p (M1 & M2 & M3).
  apply andb_true_iff in H. destruct H as [H H3]. apply andb_true_iff in H. destruct H as [H H2].
  split; [|split; eapply ports_contained_match; eauto].
  rewrite !orb_true_iff in H. destruct H as [[[H|H]|H]|H].
  - apply negb_true_iff, some_false in H. left. left. assumption.
  - destruct M1 as [M1|M1]; [left|right]; eapply ports_contained_match; eauto.
  - left. eapply ports_contained_match; eauto.
  - right. eapply ports_contained_match; eauto.
Qed.

Lemma list_str_eqb_eq a b : list_str_eqb a b = true -> a = b.
Proof.
  unfold list_str_eqb. intros H. apply andb_true_iff in H. destruct H as [H1 H2]. apply Nat.eqb_eq in H1.
  revert b H1 H2. induction a as [|x a IH]; intros [|y b] H1 H2; try discriminate; [reflexivity|].
  cbn in H2. apply andb_true_iff in H2. destruct H2 as [E H2]. apply String.eqb_eq in E. subst. f_equal. apply IH; auto.
Qed.
Lemma same_sorted_in a b : same_sorted a b = true -> forall x, In x a <-> In x b.
Proof.
  intros H x. apply list_str_eqb_eq in H. rewrite <- (py_sorted_in str_leb a), H. apply py_sorted_in.
Qed.
Lemma any_or_same {A} (a b : list A) P : (forall x, In x a <-> In x b) -> any_or b P -> any_or a P.
Proof.
  intros H [->|(x & Hx & HP)].
  - left. destruct a as [|y a]; [reflexivity|]. destruct (proj1 (H y) (or_introl eq_refl)).
  - right. exists x. split; [apply H|]; assumption.
Qed.
Lemma none_of_sub {A} (a b : list A) P : incl a b -> none_of b P -> none_of a P.
Proof. intros H N x Hx. apply N, H, Hx. Qed.
Lemma same_if_any a b P : same_if a (same_sorted a b) = true -> any_or b P -> any_or a P.
Proof.
  unfold same_if. intros H. apply orb_true_iff in H. destruct H as [H|H].
  - apply negb_true_iff, some_false in H. left. assumption.
  - apply any_or_same, same_sorted_in, H.
Qed.
Lemma same_if_none a b P : same_if a (same_sorted a b) = true -> none_of b P -> none_of a P.
Proof.
  unfold same_if. intros H. apply orb_true_iff in H. destruct H as [H|H].
  - apply negb_true_iff, some_false in H. subst. intros _ x [].
  - apply none_of_sub. intros x Hx. apply (same_sorted_in _ _ H). exact Hx.
Qed.

Lemma contains_prefixes_sound e l : comparable e l -> contains_prefixes e l = true ->
  forall p, prefixes_match l p -> prefixes_match e p.
Proof.
  unfold contains_prefixes. intros C H p (M1 & M2 & M3 & M4 & M5 & M6).
  rewrite !andb_true_iff in H. destruct H as ((((H1 & H2) & H3) & H4) & H5).
  split; [eapply same_if_any; eauto|]. split; [eapply same_if_none; eauto|].
  split; [eapply same_if_any; eauto|]. split; [eapply same_if_none; eauto|].
  unfold same_if in H5. apply orb_true_iff in H5. destruct H5 as [H5|H5].
  - apply negb_true_iff, some_false in H5. split; [left; assumption|].
    left. apply (cmp_tags _ _ C). assumption.
  - apply andb_true_iff in H5. destruct H5 as [H5 H6].
    split; eapply any_or_same; eauto; apply same_sorted_in; assumption.
Qed.

Lemma all_in_incl a b : all_in a b = true -> incl a b.
Proof. unfold all_in. rewrite forallb_forall. intros H x Hx. apply str_in_spec, H, Hx. Qed.
Lemma need_true a b : need a b = true -> a = true -> b = true.
Proof. unfold need. intros H ->. exact H. Qed.
Lemma any_or_incl {A} (a b : list A) P : b <> [] -> incl b a -> any_or b P -> any_or a P.
Proof. intros Hn H [E|(x & Hx & HP)]; [congruence|]. right. exists x. auto. Qed.

Lemma contains_options_sound e l : comparable e l -> contains_options e l = true ->
  forall p, options_match l p -> options_match e p.
Proof.
  unfold contains_options. intros C H p (M1 & M2 & M3 & M4).
  rewrite !andb_true_iff in H. destruct H as ((((((((H1 & H2) & H3) & H4) & _) & _) & _) & _) & _).
  split; [|split; [|split]].
  - destruct (t_precedence e) as [|a b] eqn:E; [left; reflexivity|]. cbn [some] in H1.
    apply andb_true_iff in H1. destruct H1 as [H1 H1']. apply some_true in H1. apply all_in_incl in H1'.
    eapply any_or_incl; eauto.
  - destruct (t_option e) as [|a b] eqn:E; [intros o []|]. cbn [some] in H2. rewrite <- E in *.
    apply andb_true_iff in H2. destruct H2 as [_ H2]. apply all_in_incl in H2.
    pose proof (not_longer_back _ _ (cmp_option _ _ C) H2) as B. intros o Ho. apply M2, B, Ho.
  - destruct (t_forwarding_class e) as [|a b] eqn:E; [left; reflexivity|]. cbn [some need negb orb] in H3.
    apply andb_true_iff in H3. destruct H3 as [H3 H3']. apply some_true in H3. apply all_in_incl in H3'.
    eapply any_or_incl; eauto.
  - destruct (t_forwarding_class_except e) as [|a b] eqn:E; [intros o []|]. cbn [some need negb orb] in H4.
    rewrite <- E in *. apply andb_true_iff in H4. destruct H4 as [_ H4]. apply all_in_incl in H4.
    pose proof (not_longer_back _ _ (cmp_class_except _ _ C) H4) as B.
    eapply none_of_sub; eauto.
Qed.

Lemma numeral_no_dash s n : numeral_value s = Some n -> has_char "-" s = false.
Proof.
  intros H. apply py_int_numeral in H. unfold py_int in H. destruct (digits s) eqn:E; [|discriminate].
  unfold digits in E. apply andb_true_iff in E. destruct E as [_ E]. clear H n.
  induction s as [|c s IH]; [reflexivity|]. cbn [forall_char has_char] in *.
  apply andb_true_iff in E. destruct E as [E1 E2]. rewrite (IH E2).
  destruct (Ascii.eqb c "-") eqn:Ec; [|reflexivity]. apply Ascii.eqb_eq in Ec. subst. discriminate E1.
Qed.
Lemma range_ints s lo hi : range_of_text s lo hi -> ints s = Ok [lo; hi].
Proof.
  intros (a & b & -> & Ha & Hb). unfold ints. pose proof (numeral_no_dash _ _ Ha). pose proof (numeral_no_dash _ _ Hb).
  change (a ++ "-" ++ b)%string with (a ++ String "-" b)%string. rewrite split_char_app, split_char_none by assumption.
  apply py_int_numeral in Ha, Hb. cbn [mapM]. rewrite Ha, Hb. reflexivity.
Qed.
Lemma range_ints_nonempty s lo hi : range_of_text s lo hi -> nonempty s = true.
Proof. intros (a & b & -> & _). destruct a; reflexivity. Qed.

Lemma fragment_sound e l : comparable e l ->
  contains_fragment (t_fragment_offset e) (t_fragment_offset l) = Ok true ->
  forall n, text_range (t_fragment_offset l) n -> text_range (t_fragment_offset e) n.
Proof.
  intros C H n M. destruct (cmp_fragment _ _ C) as [E|[E|E]]; [rewrite E; exact I|rewrite E; exact M|].
  destruct E as (s & o & a & b & c & d & Es & Eo & Rs & Hle & Ro). rewrite Es, Eo in *.
  unfold contains_fragment in H.
  rewrite (range_ints_nonempty _ _ _ Rs), (range_ints_nonempty _ _ _ Ro), (range_ints _ _ _ Rs), (range_ints _ _ _ Ro) in H.
  assert (N : c <= n <= d).
  { destruct M as [->|[M|(lo & hi & M & Hn)]].
    - apply range_ints_nonempty in Ro. discriminate Ro.
    - apply numeral_no_dash in M. destruct Ro as (x & y & -> & _ & _).
      exfalso. clear - M. induction x as [|q x IH]; cbn [append has_char] in M.
      + discriminate M.
      + apply orb_false_iff in M. destruct M as [_ M]. apply IH. exact M.
    - apply range_ints in M, Ro. rewrite M in Ro. injection Ro as -> ->. assumption. }
  right. right. exists a, b. split; [assumption|].
  cbn [bind py_sorted fold_right insert] in H.
  destruct (a <=? b) eqn:E1; destruct (c <=? d) eqn:E2; cbn [hd tl zlist_ltb] in H; injection H as H;
    try lia; destruct (b =? d) eqn:E3; lia.
Qed.

Lemma either_same {A} (a b : option A) : a = None \/ a = b -> forall v, opt_eq b v -> opt_eq a v.
Proof. intros [->| ->] v H; [exact I|exact H]. Qed.
Lemma either_any {A} (a b : list A) P : a = [] \/ a = b -> any_or b P -> any_or a P.
Proof. intros [->| ->] H; [left; reflexivity|exact H]. Qed.
Lemma either_text a b n : a = None \/ a = b -> text_range b n -> text_range a n.
Proof. intros [->| ->] H; [exact I|exact H]. Qed.

(** Flattening changes only the address lists. *)
Record same_rest (t t1 : term) : Prop := {
  sr_name : t_name t1 = t_name t;
  sr_action : t_action t1 = t_action t;
  sr_protocol : t_protocol t1 = t_protocol t;
  sr_protocol_except : t_protocol_except t1 = t_protocol_except t;
  sr_verbatim : t_verbatim t1 = t_verbatim t;
  sr_port : t_port t1 = t_port t;
  sr_source_port : t_source_port t1 = t_source_port t;
  sr_destination_port : t_destination_port t1 = t_destination_port t;
  sr_source_prefix : t_source_prefix t1 = t_source_prefix t;
  sr_source_prefix_except : t_source_prefix_except t1 = t_source_prefix_except t;
  sr_destination_prefix : t_destination_prefix t1 = t_destination_prefix t;
  sr_destination_prefix_except : t_destination_prefix_except t1 = t_destination_prefix_except t;
  sr_source_tag : t_source_tag t1 = t_source_tag t;
  sr_destination_tag : t_destination_tag t1 = t_destination_tag t;
  sr_precedence : t_precedence t1 = t_precedence t;
  sr_option : t_option t1 = t_option t;
  sr_forwarding_class : t_forwarding_class t1 = t_forwarding_class t;
  sr_forwarding_class_except : t_forwarding_class_except t1 = t_forwarding_class_except t;
  sr_next_ip : t_next_ip t1 = t_next_ip t;
  sr_next_interface : t_next_interface t1 = t_next_interface t;
  sr_next_hop_group : t_next_hop_group t1 = t_next_hop_group t;
  sr_encapsulate : t_encapsulate t1 = t_encapsulate t;
  sr_decapsulate : t_decapsulate t1 = t_decapsulate t;
  sr_fragment_offset : t_fragment_offset t1 = t_fragment_offset t;
  sr_hop_limit : t_hop_limit t1 = t_hop_limit t;
  sr_packet_length : t_packet_length t1 = t_packet_length t;
  sr_port_mirror : t_port_mirror t1 = t_port_mirror t;
  sr_icmp_type : t_icmp_type t1 = t_icmp_type t;
  sr_icmp_code : t_icmp_code t1 = t_icmp_code t;
  sr_platform : t_platform t1 = t_platform t;
  sr_platform_exclude : t_platform_exclude t1 = t_platform_exclude t;
  sr_source_zone : t_source_zone t1 = t_source_zone t;
  sr_destination_zone : t_destination_zone t1 = t_destination_zone t;
  sr_address_exclude : t_address_exclude t1 = t_address_exclude t;
  sr_source_address_exclude : t_source_address_exclude t1 = t_source_address_exclude t;
  sr_destination_address_exclude : t_destination_address_exclude t1 = t_destination_address_exclude t;
  sr_ttl : t_ttl t1 = t_ttl t;
  sr_ether_type : t_ether_type t1 = t_ether_type t;
  sr_traffic_type : t_traffic_type t1 = t_traffic_type t;
  sr_dscp_match : t_dscp_match t1 = t_dscp_match t;
  sr_dscp_except : t_dscp_except t1 = t_dscp_except t;
  sr_source_interface : t_source_interface t1 = t_source_interface t;
  sr_destination_interface : t_destination_interface t1 = t_destination_interface t;
  sr_restrict_address_family : t_restrict_address_family t1 = t_restrict_address_family t }.
Lemma flatten_frame t t1 : flat_term t -> flatten_all t = Ok t1 -> same_rest t t1.
Proof.
  intros F H. destruct (flatten_shape t F) as (fa & fs & fd & R & _). rewrite R in H. injection H as <-.
  constructor; reflexivity.
Qed.
Local Ltac rw_hyps := repeat match goal with E : ?a = ?b |- _ => try rewrite E; clear E end.
Lemma frame_ports e l e1 l1 : same_rest e e1 -> same_rest l l1 -> contains_ports e1 l1 = contains_ports e l.
Proof. intros [] []. unfold contains_ports. rw_hyps. reflexivity. Qed.
Lemma frame_prefixes e l e1 l1 : same_rest e e1 -> same_rest l l1 -> contains_prefixes e1 l1 = contains_prefixes e l.
Proof. intros [] []. unfold contains_prefixes. rw_hyps. reflexivity. Qed.
Lemma frame_options e l e1 l1 : same_rest e e1 -> same_rest l l1 -> contains_options e1 l1 = contains_options e l.
Proof. intros [] []. unfold contains_options. rw_hyps. reflexivity. Qed.
Lemma frame_protocol e l e1 l1 : same_rest e e1 -> same_rest l l1 -> contains_protocol e1 l1 = contains_protocol e l.
Proof. intros [] []. unfold contains_protocol. rw_hyps. reflexivity. Qed.
Lemma frame_rest e l e1 l1 : same_rest e e1 -> same_rest l l1 -> contains_rest e1 l1 = contains_rest e l.
Proof. intros [] []. unfold contains_rest. rw_hyps. reflexivity. Qed.

(** The containment test, unfolded into its parts. *)
Lemma term_contains_parts e l r : flat_term e -> flat_term l ->
  term_contains e l = Ok (true, r) ->
  exists e1 l1, flatten_all e = Ok e1 /\ flatten_all l = Ok l1 /\ r = (e1, l1) /\
    contains_protocol e l = true /\ contains_addresses e1 l1 = true /\ contains_ports e l = true /\
    contains_prefixes e l = true /\ contains_options e l = true /\
    contains_fragment (t_fragment_offset e) (t_fragment_offset l) = Ok true /\
    contains_hop_limit (t_hop_limit e) (t_hop_limit l) = Ok true /\
    contains_packet_length (t_packet_length e) (t_packet_length l) = Ok true /\
    contains_rest e l = true.
Proof.
  intros Fe Fl H. unfold term_contains in H. destruct (contains_protocol e l); [|discriminate H].
  unfold flattened in H. rewrite (proj1 Fe), (proj1 Fl) in H.
  destruct (flatten_shape e Fe) as (fa & fs & fd & R & _).
  destruct (flatten_shape l Fl) as (ga & gs & gd & R' & _).
  match type of R with _ = Ok ?x => generalize dependent x end. intros e1 R.
  match type of R' with _ = Ok ?x => generalize dependent x end. intros l1 R'.
  pose proof (flatten_frame _ _ Fe R) as Se. pose proof (flatten_frame _ _ Fl R') as Sl.
  rewrite R, R' in H. cbn [negb bind] in H.
  exists e1, l1. split; [exact R|]. split; [exact R'|].
  rewrite (frame_ports _ _ _ _ Se Sl), (frame_prefixes _ _ _ _ Se Sl), (frame_options _ _ _ _ Se Sl),
    (frame_rest _ _ _ _ Se Sl), (sr_fragment_offset _ _ Se), (sr_fragment_offset _ _ Sl),
    (sr_hop_limit _ _ Se), (sr_hop_limit _ _ Sl), (sr_packet_length _ _ Se), (sr_packet_length _ _ Sl) in H.
  destruct (contains_addresses e1 l1); [|discriminate H].
  destruct (contains_ports e l); [|discriminate H]. destruct (contains_prefixes e l); [|discriminate H].
  destruct (contains_options e l); [|discriminate H]. cbn [negb andb] in H.
  destruct (contains_fragment _ _) as [[|]|]; try discriminate H; cbn [negb bind] in H.
  destruct (contains_hop_limit _ _) as [[|]|]; try discriminate H; cbn [negb bind] in H.
  destruct (contains_packet_length _ _) as [[|]|]; try discriminate H; cbn [negb bind] in H.
  injection H as H1 H2. rewrite H1. subst r. tauto.
Qed.

Theorem term_contains_sound e l r : flat_term e -> flat_term l -> plain_or_full e -> comparable e l ->
  term_contains e l = Ok (true, r) ->
  forall p, term_matches l p -> term_matches e p.
Proof.
  intros Fe Fl Pe C H p (M1 & M2 & M3 & M4 & M5 & (N1 & N2 & N3 & N4) & M7 & M8 & (K1 & K2 & K3 & K4 & K5 & K6 & K7)).
  destruct (term_contains_parts _ _ _ Fe Fl H) as (e1 & l1 & R & R' & _ & H1 & H2 & H3 & H4 & H5 & H6 & _ & _ & H9).
  split; [eapply contains_addr_sound; eauto|]. split; [eapply contains_protocol_sound; eauto|].
  split; [eapply contains_ports_sound; eauto|]. split; [eapply contains_prefixes_sound; eauto|].
  split; [eapply contains_options_sound; eauto|].
  split. { split; [eapply fragment_sound; eauto|]. split; [eapply either_text; [apply (cmp_hops _ _ C)|assumption]|].
    split; [eapply either_text; [apply (cmp_length _ _ C)|assumption]|].
    eapply either_same; [apply (cmp_ttl _ _ C)|assumption]. }
  unfold contains_rest in H9. rewrite !andb_true_iff, !negb_true_iff, !some_false in H9.
  destruct H9 as ((((((_ & E1) & E2) & E3) & E4) & E5) & E6).
  split; [split; left; assumption|].
  split. { split; [left; assumption|]. split; [rewrite E4; intros a []|]. split; left; assumption. }
  split; [eapply either_any; [apply (cmp_ether _ _ C)|assumption]|].
  split; [eapply either_any; [apply (cmp_traffic _ _ C)|assumption]|].
  split; [eapply either_any; [apply (cmp_dscp _ _ C)|assumption]|].
  split. { destruct (cmp_dscp_except _ _ C) as [-> | ->]; [intros a []|assumption]. }
  split; [eapply either_same; [apply (cmp_src_if _ _ C)|assumption]|].
  split; [eapply either_same; [apply (cmp_dst_if _ _ C)|assumption]|].
  eapply either_same; [apply (cmp_family _ _ C)|assumption].
Qed.

(** ** The shading loop *)

Definition version (t0 t : term) : Prop := t = t0 \/ flatten_all t0 = Ok t.
Lemma same_rest_refl t : same_rest t t.
Proof. constructor; reflexivity. Qed.
Lemma version_rest t0 t : flat_term t0 -> version t0 t -> same_rest t0 t.
Proof. intros F [->|H]; [apply same_rest_refl|apply flatten_frame; assumption]. Qed.
Lemma flatten_flag t t1 : flat_term t -> flatten_all t = Ok t1 -> t_flattened t1 = true.
Proof.
  intros F H. destruct (flatten_shape t F) as (fa & fs & fd & R & _). rewrite R in H. injection H as <-. reflexivity.
Qed.
Lemma version_flattened t0 t : flat_term t0 -> version t0 t -> flattened t = flatten_all t0.
Proof.
  intros F [->|H]; unfold flattened; [rewrite (proj1 F); reflexivity|].
  rewrite (flatten_flag _ _ F H). symmetry. assumption.
Qed.

Lemma contains_version e0 l0 e l b e' l' : flat_term e0 -> flat_term l0 -> version e0 e -> version l0 l ->
  term_contains e l = Ok (b, (e', l')) ->
  version e0 e' /\ version l0 l' /\ exists r, term_contains e0 l0 = Ok (b, r).
Proof.
  intros Fe Fl Ve Vl H. pose proof (version_rest _ _ Fe Ve) as Se. pose proof (version_rest _ _ Fl Vl) as Sl.
  unfold term_contains in *. rewrite (frame_protocol _ _ _ _ Se Sl) in H.
  destruct (contains_protocol e0 l0); cbn [negb] in *; [|injection H as <- <- <-; eauto].
  rewrite (version_flattened _ _ Fe Ve), (version_flattened _ _ Fl Vl) in H.
  rewrite (version_flattened e0 e0 Fe (or_introl eq_refl)), (version_flattened l0 l0 Fl (or_introl eq_refl)).
  destruct (flatten_all e0) as [e1|] eqn:R; [|discriminate H]. destruct (flatten_all l0) as [l1|] eqn:R'; [|discriminate H].
  cbn [bind] in *.
  assert (G : e' = e1 /\ l' = l1).
  { clear - H.
    match type of H with (if ?c then _ else _) = _ => destruct c end; [injection H; auto|].
    destruct (contains_fragment _ _) as [[|]|]; cbn [bind negb] in H; [|injection H; auto|discriminate H].
    destruct (contains_hop_limit _ _) as [[|]|]; cbn [bind negb] in H; [|injection H; auto|discriminate H].
    destruct (contains_packet_length _ _) as [[|]|]; cbn [bind negb] in H; [|injection H; auto|discriminate H].
    injection H; auto. }
  destruct G as [-> ->]. split; [right; assumption|]. split; [right; assumption|]. eauto.
Qed.


Lemma shade_against_spec : forall es0 es l0 l es' l' found,
  Forall flat_term es0 -> flat_term l0 -> Forall2 version es0 es -> version l0 l ->
  shade_against es l = Ok (es', l', found) ->
  Forall2 version es0 es' /\ version l0 l' /\
  forall n m, In (n, m) found <-> exists e0, In e0 es0 /\ t_name l0 = n /\ t_name e0 = m /\ hides e0 l0.
Proof.
  induction es0 as [|e0 es0 IH]; intros es l0 l es' l' found Fe Fl Ve Vl H.
  - inversion Ve; subst. cbn [shade_against] in H. injection H as <- <- <-.
    split; [constructor|]. split; [assumption|]. intros n m. split; [intros []|intros (e & [] & _)].
  - inversion Ve as [|? e ? es1 V1 V2]; subst. inversion Fe as [|? ? F1 F2]; subst. cbn [shade_against] in H.
    destruct (term_contains e l) as [[b [e1 l1]]|] eqn:E; cbn [bind fst snd] in H; [|discriminate].
    destruct (contains_version _ _ _ _ _ _ _ F1 Fl V1 Vl E) as (W1 & W2 & r & Hr).
    destruct (shade_against es1 l1) as [[[es2 l2] fd]|] eqn:E2; cbn [bind fst snd] in H; [|discriminate].
    destruct (IH _ _ _ _ _ _ F2 Fl V2 W2 E2) as (X1 & X2 & X3).
    injection H as <- <- <-.
    split; [constructor; assumption|]. split; [assumption|]. intros n m.
    pose proof (version_rest _ _ F1 W1) as S1. pose proof (version_rest _ _ Fl W2) as S2.
    rewrite (sr_action _ _ S1), (sr_name _ _ S1), (sr_name _ _ S2).
    assert (B : b && negb (str_in "next" (t_action e0)) = true <-> hides e0 l0).
    { unfold hides. rewrite andb_true_iff, negb_true_iff, <- not_true_iff_false, str_in_spec. split.
      - intros [-> Hn]. eauto.
      - intros [Hn [r' Hr']]. rewrite Hr in Hr'. injection Hr' as -> _. auto. }
    destruct (b && negb (str_in "next" (t_action e0))) eqn:Eb; cbn [In]; rewrite X3; split.
    + intros [[= <- <-]|(k & He & Hn & Hm & Hh)]; [exists e0; tauto|exists k; tauto].
    + intros (k & [<-|He] & Hn & Hm & Hh); [left; congruence|right; exists k; auto].
    + intros (k & He & Hn & Hm & Hh). exists k. auto.
    + intros (k & [<-|He] & Hn & Hm & Hh); [apply B in Hh; discriminate|exists k; auto].
Qed.

Lemma shade_scan_spec : forall ts ps0 ps out found,
  Forall flat_term ps0 -> Forall flat_term ts -> Forall2 version ps0 ps ->
  shade_scan ps ts = Ok (out, found) ->
  Forall2 version (ps0 ++ ts) out /\
  forall n m, In (n, m) found <->
    exists u e v l w, ps0 ++ ts = u ++ e :: v ++ l :: w /\ (List.length ps0 <= List.length u + 1 + List.length v)%nat /\
      t_name l = n /\ t_name e = m /\ hides e l.
Proof.
  induction ts as [|t ts IH]; intros ps0 ps out found Fp Ft Vp H; cbn [shade_scan] in H.
  - injection H as <- <-. rewrite app_nil_r. split; [assumption|]. intros n m. split; [intros []|].
    intros (u & e & v & l & w & E & Hl & _). apply (f_equal (@List.length _)) in E.
    rewrite app_length in E. cbn [List.length] in E. rewrite app_length in E. cbn [List.length] in E. lia.
  - inversion Ft as [|? ? F1 F2]; subst.
    destruct (shade_against ps t) as [[[ps1 t1] fd]|] eqn:E; cbn [bind fst snd] in H; [|discriminate].
    destruct (shade_against_spec _ _ _ _ _ _ _ Fp F1 Vp (or_introl eq_refl) E) as (X1 & X2 & X3).
    destruct (shade_scan (ps1 ++ [t1]) ts) as [[out' fd']|] eqn:E2; cbn [bind fst snd] in H; [|discriminate].
    assert (Fp' : Forall flat_term (ps0 ++ [t])) by (apply Forall_app; auto).
    assert (Vp' : Forall2 version (ps0 ++ [t]) (ps1 ++ [t1])) by (apply Forall2_app; [exact X1|constructor; [exact X2|constructor]]).
    destruct (IH _ _ _ _ Fp' F2 Vp' E2) as (Y1 & Y2).
    injection H as <- <-. rewrite <- app_assoc in Y1. cbn [app] in Y1. split; [assumption|].
    intros n m. rewrite in_app_iff, X3, Y2. rewrite <- app_assoc. cbn [app]. rewrite app_length. cbn [List.length]. split.
    + intros [(e & He & Hn & Hm & Hh)|(u & e & v & l & w & Ee & Hl & Hr)].
      * apply in_split in He. destruct He as (u & v & ->). exists u, e, v, t, ts.
        rewrite <- !app_assoc. cbn [app]. split; [reflexivity|]. split; [rewrite app_length; cbn [List.length]; lia|tauto].
      * exists u, e, v, l, w. split; [assumption|]. split; [lia|assumption].
    + intros (u & e & v & l & w & Ee & Hl & Hn & Hm & Hh).
      destruct (Nat.eq_dec (List.length ps0) (List.length u + 1 + List.length v)) as [Heq|Hne].
      * left. assert (E3 : ps0 = u ++ e :: v /\ t :: ts = l :: w).
        { change (u ++ e :: v ++ l :: w) with (u ++ (e :: v) ++ l :: w) in Ee. rewrite app_assoc in Ee.
          revert Ee. assert (L : List.length ps0 = List.length (u ++ e :: v)).
          { rewrite app_length. cbn [List.length]. lia. }
          clear - L. revert L. generalize (u ++ e :: v) as q. clear.
          induction ps0 as [|a ps0 IH]; intros [|b q] L E; try discriminate L; [auto|].
          cbn [app] in E. injection E as -> E. destruct (IH q) as [-> Hr]; [injection L; auto|assumption|auto]. }
        destruct E3 as [-> [= -> ->]]. exists e. split; [apply in_or_app; right; left; reflexivity|tauto].
      * right. exists u, e, v, l, w. split; [assumption|]. split; [lia|tauto].
Qed.

Lemma shade_scan_pairs ts out found : Forall flat_term ts -> shade_scan [] ts = Ok (out, found) ->
  forall n m, In (n, m) found <->
    exists u e v l w, ts = u ++ e :: v ++ l :: w /\ t_name l = n /\ t_name e = m /\ hides e l.
Proof.
  intros F H. destruct (shade_scan_spec ts [] [] out found) as [_ X]; auto.
  intros n m. rewrite X. split; intros (u & e & v & l & w & E & R).
  - exists u, e, v, l, w. tauto.
  - exists u, e, v, l, w. split; [assumption|]. split; [cbn; lia|assumption].
Qed.


Lemma ints_raise s x : ints s = Raise x -> x = Exn "ValueError".
Proof.
  unfold ints. generalize (split_char "-" s) as l. induction l as [|a l IH]; cbn [mapM]; [discriminate|].
  unfold py_int at 1. destruct (digits a); cbn [bind]; [|congruence].
  destruct (mapM py_int l); cbn [bind]; [discriminate|]. intros [= ->]. auto.
Qed.
Lemma contains_raise e0 l0 e l x : flat_term e0 -> flat_term l0 -> version e0 e -> version l0 l ->
  term_contains e l = Raise x -> x = Exn "ValueError".
Proof.
  intros Fe Fl Ve Vl H. unfold term_contains in H.
  destruct (contains_protocol e l); cbn [negb] in H; [|discriminate].
  rewrite (version_flattened _ _ Fe Ve), (version_flattened _ _ Fl Vl) in H.
  destruct (flatten_shape e0 Fe) as (fa & fs & fd & R & _). destruct (flatten_shape l0 Fl) as (ga & gs & gd & R' & _).
  match type of R with _ = Ok ?x => generalize dependent x end. intros e1 R.
  match type of R' with _ = Ok ?x => generalize dependent x end. intros l1 R'.
  rewrite R, R' in H. cbn [bind] in H. clear - H.
  match type of H with (if ?c then _ else _) = _ => destruct c end; [discriminate H|].
  assert (I2 : forall s k, bind (ints s) (fun y => Ok (k y : bool)) = Raise x -> x = Exn "ValueError").
  { intros s k Hk. destruct (ints s) eqn:Ei; cbn [bind] in Hk; [discriminate|]. injection Hk as ->. eapply ints_raise; eauto. }
  assert (FF : forall a b, contains_fragment a b = Raise x -> x = Exn "ValueError").
  { intros [a|] b Hf; unfold contains_fragment in Hf; [|discriminate]. destruct (nonempty a); [|discriminate].
    destruct (ints a) eqn:Ei; cbn [bind] in Hf; [|injection Hf as <-; eapply ints_raise; eauto].
    destruct b as [b|]; [|discriminate]. destruct (nonempty b); [|discriminate]. eapply I2; exact Hf. }
  assert (FH : forall a b, contains_hop_limit a b = Raise x -> x = Exn "ValueError").
  { intros [a|] b Hf; unfold contains_hop_limit in Hf; [|discriminate]. destruct (nonempty a); [|discriminate].
    destruct (ints a) eqn:Ei; cbn [bind] in Hf; [|injection Hf as <-; eapply ints_raise; eauto].
    destruct b as [b|]; [|discriminate]. destruct (nonempty b); [|discriminate]. eapply I2; exact Hf. }
  assert (FP : forall a b, contains_packet_length a b = Raise x -> x = Exn "ValueError").
  { intros [a|] b Hf; unfold contains_packet_length in Hf; [|discriminate]. destruct (nonempty a); [|discriminate].
    destruct (ints a) eqn:Ei; cbn [bind] in Hf; [|injection Hf as <-; eapply ints_raise; eauto].
    destruct b as [b|]; [|discriminate]. destruct (nonempty b); [|discriminate]. eapply I2; exact Hf. }
  destruct (contains_fragment _ _) as [[|]|] eqn:E1; cbn [bind negb] in H; [|discriminate H|injection H as ->; eauto].
  destruct (contains_hop_limit _ _) as [[|]|] eqn:E2; cbn [bind negb] in H; [|discriminate H|injection H as ->; eauto].
  destruct (contains_packet_length _ _) as [[|]|] eqn:E3; cbn [bind negb] in H; [discriminate H|discriminate H|injection H as ->; eauto].
Qed.

Lemma shade_against_raise : forall es0 es l0 l x,
  Forall flat_term es0 -> flat_term l0 -> Forall2 version es0 es -> version l0 l ->
  shade_against es l = Raise x -> x = Exn "ValueError".
Proof.
  induction es0 as [|e0 es0 IH]; intros es l0 l x Fe Fl Ve Vl H.
  - inversion Ve; subst. discriminate H.
  - inversion Ve as [|? e ? es1 V1 V2]; subst. inversion Fe as [|? ? F1 F2]; subst. cbn [shade_against] in H.
    destruct (term_contains e l) as [[b [e1 l1]]|] eqn:E; cbn [bind fst snd] in H.
    + destruct (contains_version _ _ _ _ _ _ _ F1 Fl V1 Vl E) as (W1 & W2 & r & Hr).
      destruct (shade_against es1 l1) as [[[es2 l2] fd]|] eqn:E2; cbn [bind fst snd] in H; [discriminate|].
      injection H as ->. exact (IH _ _ _ _ F2 Fl V2 W2 E2).
    + injection H as ->. exact (contains_raise _ _ _ _ _ F1 Fl V1 Vl E).
Qed.
Lemma shade_scan_raise : forall ts ps0 ps x,
  Forall flat_term ps0 -> Forall flat_term ts -> Forall2 version ps0 ps ->
  shade_scan ps ts = Raise x -> x = Exn "ValueError".
Proof.
  induction ts as [|t ts IH]; intros ps0 ps x Fp Ft Vp H; cbn [shade_scan] in H; [discriminate|].
  inversion Ft as [|? ? F1 F2]; subst.
  destruct (shade_against ps t) as [[[ps1 t1] fd]|] eqn:E; cbn [bind fst snd] in H.
  - destruct (shade_against_spec _ _ _ _ _ _ _ Fp F1 Vp (or_introl eq_refl) E) as (X1 & X2 & _).
    destruct (shade_scan (ps1 ++ [t1]) ts) as [[out' fd']|] eqn:E2; cbn [bind fst snd] in H; [discriminate|].
    injection H as ->. refine (IH (ps0 ++ [t]) _ _ _ F2 _ E2); [apply Forall_app; auto|].
    apply Forall2_app; [assumption|constructor; [assumption|constructor]].
  - injection H as ->. exact (shade_against_raise _ _ _ _ _ Fp F1 Vp (or_introl eq_refl) E).
Qed.

Lemma detect_shading_iff ts : Forall flat_term ts ->
  (detect_shading ts = Raise (Exn "ShadingError") ->
     exists u e v l w, ts = u ++ e :: v ++ l :: w /\ hides e l) /\
  (forall out, detect_shading ts = Ok out ->
     forall u e v l w, ts = u ++ e :: v ++ l :: w -> ~ hides e l).
Proof.
  intros F. unfold detect_shading. destruct (shade_scan [] ts) as [[out found]|x] eqn:E; cbn [bind fst snd].
  - pose proof (shade_scan_pairs _ _ _ F E) as X. destruct found as [|[n m] found]; split.
    + discriminate.
    + intros o _ u e v l w Ee Hh. apply (X (t_name l) (t_name e)). exists u, e, v, l, w. auto.
    + intros _. destruct (proj1 (X n m) (or_introl eq_refl)) as (u & e & v & l & w & Ee & _ & _ & Hh). eauto 10.
    + discriminate.
  - split; [|discriminate]. intros [= ->].
    assert (E' := shade_scan_raise ts [] [] _ (Forall_nil _) F (Forall2_nil _) E). discriminate E'.
Qed.

(** ** Flattening keeps the meaning *)

Lemma new_side_matches anyx inc exc flat : flat_side anyx inc exc flat -> survives inc exc ->
  (exc <> [] -> anyx = true) ->
  (new_side inc exc flat = [] <-> inc = []) /\
  forall x, side_matches (new_side inc exc flat) exc x <-> side_matches inc exc x.
Proof.
  intros F S A. unfold new_side. destruct exc as [|e exc]; cbn [some]; [tauto|].
  assert (Hn : e :: exc <> []) by discriminate. specialize (A Hn). subst anyx.
  destruct F as (V & _ & _ & H). specialize (H eq_refl Hn).
  assert (E : flat = [] <-> inc = []).
  { split; intros E.
    - destruct inc as [|a inc]; [reflexivity|]. destruct (S ltac:(discriminate) Hn) as [y Hy]. apply H in Hy.
      rewrite E in Hy. apply covered_nil in Hy. destruct Hy.
    - subst inc. destruct flat as [|f flat]; [reflexivity|]. assert (C : covered (f :: flat) (nver f, naddr f)).
      { exists f. split; [left; reflexivity|]. split; [reflexivity|].
        unfold valid_list in V. rewrite Forall_forall in V. pose proof (V f (or_introl eq_refl)) as Vf.
        pose proof (size_pos f ltac:(apply Vf)). simpl. lia. }
      apply H in C. destruct C as [C _]. apply covered_nil in C. destruct C. }
  split; [assumption|]. intros x. unfold side_matches. rewrite E, H. tauto.
Qed.


Lemma term_matches_rest t t1 p : same_rest t t1 -> (addresses_match t1 p <-> addresses_match t p) ->
  term_matches t1 p <-> term_matches t p.
Proof.
  intros S A. unfold term_matches, protocols_match, all_ports_match, prefixes_match, options_match,
    numbers_match, icmp_match, place_matches, link_matches. rewrite A. destruct S. rw_hyps. tauto.
Qed.

Lemma flatten_meaning t t1 : flat_term t -> nothing_emptied t -> flatten_all t = Ok t1 ->
  forall p, term_matches t1 p <-> term_matches t p.
Proof.
  intros F (NA & NS & ND) H p. apply term_matches_rest; [apply flatten_frame; assumption|].
  destruct (flatten_shape t F) as (fa & fs & fd & R & SA & SS & SD). rewrite R in H. injection H as <-.
  unfold addresses_match.
  destruct (new_side_matches _ _ _ _ SA NA) as [A1 A2].
  { intros H. unfold any_exclude. apply some_true in H. rewrite H. rewrite !orb_true_r. reflexivity. }
  destruct (new_side_matches _ _ _ _ SS NS) as [S1 S2].
  { intros H. unfold any_exclude. apply some_true in H. rewrite H. reflexivity. }
  destruct (new_side_matches _ _ _ _ SD ND) as [D1 D2].
  { intros H. unfold any_exclude. apply some_true in H. rewrite H. rewrite !orb_true_r. reflexivity. }
  match goal with |- ?l <-> _ => change l with
    (either_matches (new_side (t_address t) (t_address_exclude t) fa) (t_address_exclude t) (p_src p) (p_dst p) /\
     side_matches (new_side (t_source_address t) (t_source_address_exclude t) fs) (t_source_address_exclude t) (p_src p) /\
     side_matches (new_side (t_destination_address t) (t_destination_address_exclude t) fd) (t_destination_address_exclude t) (p_dst p))
  end.
  unfold either_matches. rewrite !A2, S2, D2, A1. tauto.
Qed.

(** ** Clean-up *)

Lemma empty_covered l : valid_list l -> (forall x, ~ covered l x) -> l = [].
Proof.
  intros V H. destruct l as [|f l]; [reflexivity|]. destruct (H (nver f, naddr f)).
  exists f. split; [left; reflexivity|]. split; [reflexivity|].
  unfold valid_list in V. rewrite Forall_forall in V. pose proof (V f (or_introl eq_refl)) as Vf.
  pose proof (size_pos f ltac:(apply Vf)). simpl. lia.
Qed.
Lemma same_cover_empty l k : valid_list l -> valid_list k -> (forall x, covered l x <-> covered k x) ->
  l = [] <-> k = [].
Proof.
  intros Vl Vk H. split; intros ->; apply empty_covered; auto; intros x Hx; apply H in Hx; apply covered_nil in Hx; assumption.
Qed.

Lemma clean_spec opt book l compl r : valid_list l -> clean opt book l compl = Ok r ->
  valid_list r /\ forall x, covered r x <-> covered l x.
Proof.
  unfold clean, cleanup. intros V H. destruct (some l) eqn:E; [|injection H as <-; tauto].
  destruct opt; cbn [negb] in H.
  - destruct book.
    + destruct (preserve_tokens_coverage l V) as (r' & R & V' & C). rewrite R in H. injection H as <-. auto.
    + split; [exact (proj1 (collapse_coverage _ _ _ V H))|exact (proj2 (collapse_coverage _ _ _ V H))].
  - injection H as <-. destruct (sort_addr_list_spec l V) as [P _]. split.
    + unfold valid_list in *. rewrite Forall_forall in *. intros n Hn. apply V. eapply Permutation_in; eauto.
    + intros x. unfold covered. split; intros (n & Hn & Hx); exists n; split; auto;
      [eapply Permutation_in; eauto|eapply Permutation_in; [apply Permutation_sym; eauto|assumption]].
Qed.

Lemma collapse_ports_empty l : collapse_port_list l = [] <-> l = [].
Proof.
  unfold collapse_port_list.
  assert (G : forall k st, st <> [] -> fold_left collapse_port_step k st <> []).
  { induction k as [|q k IH]; intros st Hs; cbn [fold_left]; [assumption|]. apply IH.
    destruct st as [|a st]; [congruence|]. cbn [collapse_port_step].
    repeat match goal with |- context [if ?c then _ else _] => destruct c end; discriminate. }
  split; intros H; [|subst; reflexivity].
  assert (E : py_sorted prange_leb l = []).
  { destruct (py_sorted prange_leb l) as [|a k]; [reflexivity|]. exfalso. cbn [fold_left] in H.
    apply (f_equal (@rev _)) in H. rewrite rev_involutive in H. revert H. apply G. discriminate. }
  apply Permutation_nil. rewrite <- E. apply py_sorted_perm.
Qed.
Lemma collapse_ports_match l p : ports_match (collapse_port_list l) p <-> ports_match l p.
Proof. unfold ports_match. rewrite collapse_ports_empty, collapse_ports_cover. tauto. Qed.


Lemma side_same i i' x x' y : valid_list i -> valid_list i' -> valid_list x -> valid_list x' ->
  (forall y, covered i' y <-> covered i y) -> (forall y, covered x' y <-> covered x y) ->
  (side_matches i' x' y <-> side_matches i x y) /\ (i' = [] <-> i = []) /\ (x' = [] <-> x = []).
Proof.
  intros V1 V2 V3 V4 H1 H2.
  pose proof (same_cover_empty i' i V2 V1 H1) as E1. pose proof (same_cover_empty x' x V4 V3 H2) as E2.
  unfold side_matches. rewrite H1, H2, E1. tauto.
Qed.

(** Two terms that differ at most in addresses, ports and fields no packet sees. *)
Record same_core (t t1 : term) : Prop := {
  sc_protocol : t_protocol t1 = t_protocol t;
  sc_protocol_except : t_protocol_except t1 = t_protocol_except t;
  sc_source_prefix : t_source_prefix t1 = t_source_prefix t;
  sc_source_prefix_except : t_source_prefix_except t1 = t_source_prefix_except t;
  sc_destination_prefix : t_destination_prefix t1 = t_destination_prefix t;
  sc_destination_prefix_except : t_destination_prefix_except t1 = t_destination_prefix_except t;
  sc_source_tag : t_source_tag t1 = t_source_tag t;
  sc_destination_tag : t_destination_tag t1 = t_destination_tag t;
  sc_precedence : t_precedence t1 = t_precedence t;
  sc_option : t_option t1 = t_option t;
  sc_forwarding_class : t_forwarding_class t1 = t_forwarding_class t;
  sc_forwarding_class_except : t_forwarding_class_except t1 = t_forwarding_class_except t;
  sc_fragment_offset : t_fragment_offset t1 = t_fragment_offset t;
  sc_hop_limit : t_hop_limit t1 = t_hop_limit t;
  sc_packet_length : t_packet_length t1 = t_packet_length t;
  sc_icmp_type : t_icmp_type t1 = t_icmp_type t;
  sc_icmp_code : t_icmp_code t1 = t_icmp_code t;
  sc_platform : t_platform t1 = t_platform t;
  sc_platform_exclude : t_platform_exclude t1 = t_platform_exclude t;
  sc_source_zone : t_source_zone t1 = t_source_zone t;
  sc_destination_zone : t_destination_zone t1 = t_destination_zone t;
  sc_ttl : t_ttl t1 = t_ttl t;
  sc_ether_type : t_ether_type t1 = t_ether_type t;
  sc_traffic_type : t_traffic_type t1 = t_traffic_type t;
  sc_dscp_match : t_dscp_match t1 = t_dscp_match t;
  sc_dscp_except : t_dscp_except t1 = t_dscp_except t;
  sc_source_interface : t_source_interface t1 = t_source_interface t;
  sc_destination_interface : t_destination_interface t1 = t_destination_interface t;
  sc_restrict_address_family : t_restrict_address_family t1 = t_restrict_address_family t }.
Lemma term_matches_core t t1 p : same_core t t1 -> (addresses_match t1 p <-> addresses_match t p) ->
  term_matches t1 p <->
  addresses_match t p /\ protocols_match t p /\ all_ports_match t1 p /\ prefixes_match t p /\
  options_match t p /\ numbers_match t p /\ icmp_match t p /\ place_matches t p /\ link_matches t p.
Proof.
  intros S A. unfold term_matches, protocols_match, prefixes_match, options_match,
    numbers_match, icmp_match, place_matches, link_matches. rewrite A. destruct S. rw_hyps. tauto.
Qed.

Record cleaned (t t1 : term) (a s sx d dx : list net) : Prop := {
  cl_core : same_core t t1;
  cl_a : t_address t1 = a; cl_ax : t_address_exclude t1 = t_address_exclude t;
  cl_s : t_source_address t1 = s; cl_sx : t_source_address_exclude t1 = sx;
  cl_d : t_destination_address t1 = d; cl_dx : t_destination_address_exclude t1 = dx;
  cl_p : t_port t1 = collapse_port_list (t_port t);
  cl_sp : t_source_port t1 = collapse_port_list (t_source_port t);
  cl_dp : t_destination_port t1 = collapse_port_list (t_destination_port t) }.

Lemma address_cleanup_meaning opt book t t1 : term_valid t -> address_cleanup opt book t = Ok t1 ->
  forall p, term_matches t1 p <-> term_matches t p.
Proof.
  intros (VA & VAX & VS & VSX & VD & VDX) H p. unfold address_cleanup in H.
  destruct (clean opt book (t_address t) []) as [a|] eqn:EA; cbn [bind] in H; [|discriminate].
  destruct (clean opt book (t_source_address t) (t_source_address_exclude t)) as [s|] eqn:ES; cbn [bind] in H; [|discriminate].
  destruct (clean opt book (t_source_address_exclude t) s) as [sx|] eqn:ESX; cbn [bind] in H; [|discriminate].
  destruct (clean opt book (t_destination_address t) (t_destination_address_exclude t)) as [d|] eqn:ED; cbn [bind] in H; [|discriminate].
  destruct (clean opt book (t_destination_address_exclude t) d) as [dx|] eqn:EDX; cbn [bind] in H; [|discriminate].
  assert (K : cleaned t t1 a s sx d dx).
  { injection H as <-. constructor; try reflexivity. constructor; reflexivity. }
  clear H.
  destruct (clean_spec _ _ _ _ _ VA EA) as [WA CA]. destruct (clean_spec _ _ _ _ _ VS ES) as [WS CS].
  destruct (clean_spec _ _ _ _ _ VSX ESX) as [WSX CSX]. destruct (clean_spec _ _ _ _ _ VD ED) as [WD CD].
  destruct (clean_spec _ _ _ _ _ VDX EDX) as [WDX CDX].
  destruct K as [K1 K2 K3 K4 K5 K6 K7 K8 K9 K10].
  rewrite (term_matches_core t t1 p K1).
  - unfold term_matches, all_ports_match. rewrite K8, K9, K10, !collapse_ports_match. tauto.
  - unfold addresses_match, either_matches. rewrite K2, K3, K4, K5, K6, K7.
    destruct (side_same _ _ _ _ (p_src p) VA WA VAX VAX CA ltac:(tauto)) as (X1 & X2 & _).
    destruct (side_same _ _ _ _ (p_dst p) VA WA VAX VAX CA ltac:(tauto)) as (Y1 & _ & _).
    destruct (side_same _ _ _ _ (p_src p) VS WS VSX WSX CS CSX) as (Z1 & _ & _).
    destruct (side_same _ _ _ _ (p_dst p) VD WD VDX WDX CD CDX) as (W1 & _ & _).
    rewrite X1, Y1, Z1, W1, X2. tauto.
Qed.

(** Clean-up succeeds, unless it optimises lists of mixed families. *)
Lemma clean_total opt book l compl : valid_list l ->
  opt = false \/ book = true \/ one_family l -> exists r, clean opt book l compl = Ok r.
Proof.
  intros V H. unfold clean, cleanup. destruct (some l); [|eauto]. destruct opt; cbn [negb]; [|eauto].
  destruct book.
  - destruct (preserve_tokens_coverage l V) as (r' & R & _). eauto.
  - apply collapse_never_raises_partial; [assumption|]. right.
    destruct H as [H|[H|H]]; try discriminate. destruct l as [|a l]; [exists V4; constructor|].
    exists (nver a). apply Forall_forall. intros n Hn. apply H; [assumption|left; reflexivity].
Qed.
Lemma address_cleanup_total opt book t : term_valid t ->
  (opt = false \/ book = true \/
   (one_family (t_source_address t) /\ one_family (t_source_address_exclude t) /\
    one_family (t_destination_address t) /\ one_family (t_destination_address_exclude t))) ->
  exists t1, address_cleanup opt book t = Ok t1.
Proof.
  intros (VA & VAX & VS & VSX & VD & VDX) H. unfold address_cleanup.
  assert (EA : exists r, clean opt book (t_address t) [] = Ok r).
  { unfold clean, cleanup. destruct (some _); [|eauto]. destruct opt; cbn [negb]; [|eauto]. destruct book.
    - destruct (preserve_tokens_coverage _ VA) as (r' & R & _). eauto.
    - apply collapse_never_raises_partial; auto. }
  destruct EA as [a ->]. cbn [bind].
  destruct (clean_total opt book (t_source_address t) (t_source_address_exclude t)) as [s ->]; [assumption|tauto|]. cbn [bind].
  destruct (clean_total opt book (t_source_address_exclude t) s) as [sx ->]; [assumption|tauto|]. cbn [bind].
  destruct (clean_total opt book (t_destination_address t) (t_destination_address_exclude t)) as [d ->]; [assumption|tauto|]. cbn [bind].
  destruct (clean_total opt book (t_destination_address_exclude t) d) as [dx ->]; [assumption|tauto|]. cbn [bind]. eauto.
Qed.

(** ** Sanity checks *)

Lemma given_true o : given o = true <-> exists s, s <> ""%string /\ o = Some s.
Proof.
  destruct o as [s|]; cbn [given]; [|split; [discriminate|intros (s & _ & H); discriminate]].
  unfold nonempty. destruct s as [|c s]; cbn [is_empty negb]; split; try discriminate; eauto.
  - intros (s & H & E). congruence.
  - intros _. eexists. split; [|reflexivity]. discriminate.
Qed.

Lemma says_spec t :
  negb (some (t_action t)) && negb (given (t_routing_instance t)) && negb (some (t_next_ip t))
         && negb (given (t_next_interface t)) && negb (given (t_next_hop_group t))
         && negb (given (t_encapsulate t)) && negb (given (t_decapsulate t))
         && negb (given (t_filter_term t)) && negb (given (t_port_mirror t)) = false <-> says_what_to_do t.
Proof.
  unfold says_what_to_do. rewrite <- !negb_orb, negb_false_iff, !orb_true_iff, !some_true, !given_true. cbn [In]. split.
  - intros H. decompose [or] H; auto; right; right;
    match goal with E : exists s, _ |- _ => destruct E as (s & E1 & E2); exists s; rewrite E2; tauto end.
  - intros [H|[H|(s & Hs & H)]]; [tauto|tauto|]. decompose [or] H; try contradiction; eauto 12.
Qed.

Lemma ports_spec t : some (t_source_port t) || some (t_destination_port t) || some (t_port t) = true <-> has_ports t.
Proof. unfold has_ports. rewrite !orb_true_iff, !some_true. tauto. Qed.

Lemma filter_nil {A} (f : A -> bool) l : filter f l = [] <-> forall x, In x l -> f x = false.
Proof.
  induction l as [|a l IH]; cbn [filter]; [split; [intros _ x []|reflexivity]|].
  destruct (f a) eqn:E; split; intros H; try discriminate.
  - rewrite (H a (or_introl eq_refl)) in E. discriminate.
  - intros x [<-|Hx]; [assumption|apply IH; assumption].
  - apply IH. intros x Hx. apply H. right. assumption.
Qed.

Lemma assoc_known {A} n (l : list (string * A)) : assoc n l = None <-> ~ In n (map fst l).
Proof.
  induction l as [|[k v] l IH]; cbn [assoc map fst In]; [tauto|].
  destruct (String.eqb n k) eqn:E.
  - apply String.eqb_eq in E. subst. split; [discriminate|]. intros H. exfalso. auto.
  - apply String.eqb_neq in E. rewrite IH. split; intros H; [intros [<-|F]; auto|auto].
Qed.
Lemma known_type_spec n : known_icmp_type n = true <-> known_type n.
Proof.
  unfold known_icmp_type, known_type. pose proof (assoc_known n icmp_type4). pose proof (assoc_known n icmp_type6).
  destruct (assoc n icmp_type4), (assoc n icmp_type6); split; intros Hx; try reflexivity; try discriminate.
  - left. destruct (in_dec string_dec n (map fst icmp_type4)) as [I|I]; [exact I|]. apply H in I. discriminate.
  - left. destruct (in_dec string_dec n (map fst icmp_type4)) as [I|I]; [exact I|]. apply H in I. discriminate.
  - right. destruct (in_dec string_dec n (map fst icmp_type6)) as [I|I]; [exact I|]. apply H0 in I. discriminate.
  - exfalso. destruct H as [H _], H0 as [H0 _]. destruct Hx as [Hx|Hx]; [apply (H eq_refl)|apply (H0 eq_refl)]; assumption.
Qed.

Lemma bind_unit (m : res unit) (k : unit -> res unit) : bind m k = Ok tt <-> m = Ok tt /\ k tt = Ok tt.
Proof.
  destruct m as [[]|]; cbn [bind]; split; intros H.
  - split; [reflexivity|exact H].
  - exact (proj2 H).
  - discriminate.
  - destruct H; discriminate.
Qed.

Lemma icmp_code_spec t : check_icmp_code t = Ok tt <->
  (t_icmp_code t <> [] -> exists n codes, t_icmp_type t = [n] /\ icmp_code_table n = Some codes /\
     forall c, In c (t_icmp_code t) -> In c codes).
Proof.
  unfold check_icmp_code, icmp_code_table. destruct (some (t_icmp_code t)) eqn:E.
  - apply some_true in E. destruct (t_icmp_type t) as [|n [|m l]].
    + split; [discriminate|]. intros H. destruct (H E) as (n & c & ? & _). discriminate.
    + destruct (assoc n icmp_codes) as [codes|] eqn:Ea.
      * assert (B : forallb (fun c => memb Z.eqb c codes) (t_icmp_code t) = true <->
                    forall c, In c (t_icmp_code t) -> In c codes).
        { rewrite forallb_forall. unfold memb. split; intros H c Hc; specialize (H c Hc).
          - apply existsb_exists in H. destruct H as (d & Hd & H). apply Z.eqb_eq in H. congruence.
          - apply existsb_exists. exists c. split; [assumption|apply Z.eqb_refl]. }
        destruct (forallb _ _).
        -- split; [|reflexivity]. intros _ _. exists n, codes. split; [reflexivity|]. split; [assumption|]. apply B. reflexivity.
        -- split; [discriminate|]. intros H. destruct (H E) as (n' & c & [= <-] & Hc & Hx). rewrite Ea in Hc.
           injection Hc as <-. apply B in Hx. discriminate.
      * split; [discriminate|]. intros H. destruct (H E) as (n' & c & [= <-] & Hc & _). congruence.
    + split; [discriminate|]. intros H. destruct (H E) as (n' & c & ? & _). discriminate.
  - apply some_false in E. rewrite E. split; [congruence|reflexivity].
Qed.

Lemma optional_range (o : option Z) lo hi (e : exn) : lo <= 0 <= hi ->
  match o with
  | Some n => if n =? 0 then Ok tt else if (lo <=? n) && (n <=? hi) then Ok tt else Raise e
  | None => Ok tt
  end = Ok tt <-> forall n, o = Some n -> lo <= n <= hi.
Proof.
  intros H0. destruct o as [n|]; [|split; [discriminate|reflexivity]].
  destruct (n =? 0) eqn:E1; [split; [intros _ m [= <-]; lia|reflexivity]|].
  destruct ((lo <=? n) && (n <=? hi)) eqn:E2.
  - split; [intros _ m [= <-]; lia|reflexivity].
  - split; [discriminate|]. intros H. specialize (H n eq_refl). lia.
Qed.

Lemma sanity_check_iff t : sanity_check t = Ok tt <-> acceptable t.
Proof.
  unfold sanity_check, acceptable. rewrite !bind_unit, icmp_code_spec.
  rewrite (optional_range _ min_ttl max_ttl) by (unfold min_ttl, max_ttl; lia).
  rewrite (optional_range _ 0 7) by lia. unfold min_ttl, max_ttl.
  assert (E1 : (if some (t_verbatim t)
     then if some (t_action t) || some (t_source_port t) || some (t_destination_port t) || some (t_port t)
            || some (t_protocol t) || some (t_option t) then Raise (Exn "ParseError") else Ok tt
     else if negb (some (t_action t)) && negb (given (t_routing_instance t)) && negb (some (t_next_ip t))
         && negb (given (t_next_interface t)) && negb (given (t_next_hop_group t))
         && negb (given (t_encapsulate t)) && negb (given (t_decapsulate t))
         && negb (given (t_filter_term t)) && negb (given (t_port_mirror t))
       then Raise (Exn "TermNoActionError")
       else if given (t_filter_term t) && some (t_action t) then Raise (Exn "InvalidTermActionError")
       else
        let no_ports := filter (fun p => negb (str_in p protos_with_ports)) (t_protocol t) in
        if some no_ports && (some (t_source_port t) || some (t_destination_port t) || some (t_port t)) then
          if some (filter (fun p => negb (str_in p no_ports)) (t_protocol t))
          then Raise (Exn "MixedPortandNonPortProtos")
          else Raise (Exn "TermPortProtocolError")
        else Ok tt) = Ok tt <->
    (t_verbatim t <> [] -> t_action t = [] /\ ~ has_ports t /\ t_protocol t = [] /\ t_option t = []) /\
    (t_verbatim t = [] ->
     says_what_to_do t /\
     (t_action t = [] \/ ~ exists s, s <> ""%string /\ t_filter_term t = Some s) /\
     (has_ports t -> forall q, In q (t_protocol t) -> In q ["tcp"; "udp"; "udplite"; "sctp"]%string))).
  { destruct (some (t_verbatim t)) eqn:Ev.
    - apply some_true in Ev. transitivity (t_action t = [] /\ ~ has_ports t /\ t_protocol t = [] /\ t_option t = []);
      [|tauto]. rewrite <- !some_false, <- ports_spec.
      destruct (some (t_action t)), (some (t_source_port t)), (some (t_destination_port t)), (some (t_port t)),
        (some (t_protocol t)), (some (t_option t)); cbn; intuition congruence.
    - apply some_false in Ev.
      transitivity (says_what_to_do t /\
       (t_action t = [] \/ ~ exists s, s <> ""%string /\ t_filter_term t = Some s) /\
       (has_ports t -> forall q, In q (t_protocol t) -> In q ["tcp"; "udp"; "udplite"; "sctp"]%string)); [|tauto].
      rewrite <- says_spec. destruct (_ && negb (given (t_port_mirror t))); [split; [discriminate|intros [H _]; discriminate]|].
      rewrite <- given_true, <- some_false, <- ports_spec.
      destruct (given (t_filter_term t)), (some (t_action t)); cbn [andb];
        try (split; [discriminate|intros (_ & [H|H] & _); [discriminate|destruct (H eq_refl)]]);
      (assert (B : filter (fun p => negb (str_in p protos_with_ports)) (t_protocol t) = [] <->
         (forall q, In q (t_protocol t) -> In q ["tcp"; "udp"; "udplite"; "sctp"]%string));
       [rewrite filter_nil; split; intros H q Hq; specialize (H q Hq);
        [apply negb_false_iff in H; apply str_in_spec in H; exact H|
         apply negb_false_iff; apply str_in_spec; exact H]|];
       rewrite <- B, <- some_false; cbv zeta;
       destruct (some (filter (fun p => negb (str_in p protos_with_ports)) (t_protocol t)));
       destruct (some (t_source_port t) || some (t_destination_port t) || some (t_port t)); cbn [andb];
       try destruct (some (filter _ _)); intuition congruence). }
  rewrite E1. clear E1.
  assert (E2 : (if some (t_ether_type t) &&
       (some (t_protocol t) || some (t_address t) || some (t_destination_address t)
        || some (t_destination_address_exclude t) || some (t_destination_port t)
        || some (t_destination_prefix t) || some (t_destination_prefix_except t)
        || some (t_source_address t) || some (t_source_address_exclude t) || some (t_source_port t)
        || some (t_source_prefix t) || some (t_source_prefix_except t))
    then Raise (Exn "TermProtocolEtherTypeError") else Ok tt) = Ok tt <-> (t_ether_type t <> [] -> ~ has_layer3 t)).
  { rewrite <- some_true. unfold has_layer3. rewrite <- !some_true.
    destruct (some (t_ether_type t)); cbn [andb]; [|split; [discriminate|reflexivity]].
    match goal with |- context [if ?c then _ else _] => destruct c eqn:E end.
    - rewrite !orb_true_iff in E. split; [discriminate|]. intros H. exfalso. apply (H eq_refl). tauto.
    - rewrite !orb_false_iff in E. split; [|reflexivity]. intros _ _ H'. intuition congruence. }
  rewrite E2. clear E2.
  assert (E3 : (if forallb known_icmp_type (t_icmp_type t) then Ok tt else Raise (Exn "TermInvalidIcmpType")) = Ok tt <->
     forall n, In n (t_icmp_type t) -> known_type n).
  { destruct (forallb known_icmp_type (t_icmp_type t)) eqn:E.
    - split; [|reflexivity]. intros _ n Hn. rewrite forallb_forall in E. apply known_type_spec, E, Hn.
    - split; [discriminate|]. intros H. rewrite <- not_true_iff_false in E. exfalso. apply E.
      apply forallb_forall. intros n Hn. apply known_type_spec, H, Hn. }
  rewrite E3. tauto.
Qed.

(** ** Translation *)

Lemma translate_field_spec fuel svc names protos l : well_formed svc ->
  translate_field fuel svc names protos = Ok l ->
  forall n, ports_match l n <-> named_ports svc names protos n.
Proof.
  intros W H n. unfold translate_field in H. unfold ports_match, named_ports.
  destruct (some names) eqn:E.
  - apply some_true in E. destruct (translate_ports fuel svc names protos) as [k|] eqn:T; cbn [bind] in H; [|discriminate].
    destruct (some k) eqn:Ek; [|discriminate]. injection H as <-. apply some_true in Ek.
    pose proof (translate_ports_spec _ _ _ _ _ W T) as S. split.
    + intros [F|((lo & hi) & Hr & Hn)]; [congruence|]. right. apply S in Hr.
      destruct Hr as (port & T' & proto & p & H1 & H2 & H3 & H4 & H5).
      exists port, T', proto, p, lo, hi. unfold in_range in Hn. cbn in Hn. repeat (split; [assumption|]). assumption.
    + intros [F|(port & T' & proto & p & lo & hi & H1 & H2 & H3 & H4 & H5 & H6)]; [congruence|]. right.
      exists (lo, hi). split; [|exact H6]. apply S. exists port, T', proto, p. tauto.
  - apply some_false in E. injection H as <-. subst. tauto.
Qed.

Lemma translate_term_spec fuel svc opt book r t : well_formed svc -> term_valid (r_term r) ->
  t_port (r_term r) = [] -> t_source_port (r_term r) = [] -> t_destination_port (r_term r) = [] ->
  translate_term fuel svc opt book r = Ok t ->
  acceptable t /\
  forall p, term_matches t p <-> term_matches (r_term r) p /\
    (named_ports svc (r_port r) (t_protocol (r_term r)) (p_sport p) \/
     named_ports svc (r_port r) (t_protocol (r_term r)) (p_dport p)) /\
    named_ports svc (r_source_port r) (t_protocol (r_term r)) (p_sport p) /\
    named_ports svc (r_destination_port r) (t_protocol (r_term r)) (p_dport p).
Proof.
  intros W V E1 E2 E3 H. unfold translate_term in H.
  destruct (translate_field _ _ (r_port r) _) as [a|] eqn:F1; cbn [bind] in H; [|discriminate].
  destruct (translate_field _ _ (r_source_port r) _) as [b|] eqn:F2; cbn [bind] in H; [|discriminate].
  destruct (translate_field _ _ (r_destination_port r) _) as [c|] eqn:F3; cbn [bind] in H; [|discriminate].
  destruct (address_cleanup _ _ _) as [t1|] eqn:C; cbn [bind] in H; [|discriminate].
  destruct (sanity_check t1) as [[]|] eqn:S; cbn [bind] in H; [|discriminate]. injection H as <-.
  assert (SC : same_core t1 (set_translated true t1)) by (constructor; reflexivity).
  split.
  { apply sanity_check_iff in S. unfold acceptable, says_what_to_do, has_ports, has_layer3 in *. exact S. }
  intros p.
  assert (T : term_matches (set_translated true t1) p <-> term_matches t1 p).
  { rewrite (term_matches_core t1 (set_translated true t1) p SC).
    - unfold term_matches. assert (P : all_ports_match (set_translated true t1) p <-> all_ports_match t1 p); [|tauto].
      unfold all_ports_match. assert (E : forall a b c d e f, a = d -> b = e -> c = f ->
        ((ports_match a (p_sport p) \/ ports_match a (p_dport p)) /\ ports_match b (p_sport p) /\ ports_match c (p_dport p) <->
         (ports_match d (p_sport p) \/ ports_match d (p_dport p)) /\ ports_match e (p_sport p) /\ ports_match f (p_dport p)))
        by (intros; subst; tauto).
      apply E; reflexivity.
    - unfold addresses_match.
      assert (E : forall a b c d e f a' b' c' d' e' f', a = a' -> b = b' -> c = c' -> d = d' -> e = e' -> f = f' ->
        (either_matches a b (p_src p) (p_dst p) /\ side_matches c d (p_src p) /\ side_matches e f (p_dst p) <->
         either_matches a' b' (p_src p) (p_dst p) /\ side_matches c' d' (p_src p) /\ side_matches e' f' (p_dst p)))
        by (intros; subst; tauto).
      apply E; reflexivity. }
  rewrite T. clear T SC S.
  assert (E0 : exists u, u = set_port a (set_source_port b (set_destination_port c (r_term r))) /\
     same_core (r_term r) u /\ t_port u = a /\ t_source_port u = b /\ t_destination_port u = c /\
     t_address u = t_address (r_term r) /\ t_address_exclude u = t_address_exclude (r_term r) /\
     t_source_address u = t_source_address (r_term r) /\ t_source_address_exclude u = t_source_address_exclude (r_term r) /\
     t_destination_address u = t_destination_address (r_term r) /\
     t_destination_address_exclude u = t_destination_address_exclude (r_term r)).
  { eexists. split; [reflexivity|]. split; [constructor; reflexivity|]. repeat (split; [reflexivity|]). reflexivity. }
  destruct E0 as (u & Eu & SC & U1 & U2 & U3 & A1 & A2 & A3 & A4 & A5 & A6). rewrite <- Eu in C. clear Eu.
  assert (Vu : term_valid u) by (unfold term_valid in *; rewrite A1, A2, A3, A4, A5, A6; exact V).
  rewrite (address_cleanup_meaning _ _ _ _ Vu C), (term_matches_core (r_term r) u p SC);
    [|unfold addresses_match; rewrite A1, A2, A3, A4, A5, A6; tauto].
  unfold term_matches, all_ports_match. rewrite U1, U2, U3, E1, E2, E3.
  rewrite !(translate_field_spec _ _ _ _ _ W F1), (translate_field_spec _ _ _ _ _ W F2), (translate_field_spec _ _ _ _ _ W F3).
  assert (N : forall n, ports_match [] n) by (left; reflexivity).
  pose proof (N (p_sport p)). pose proof (N (p_dport p)). tauto.
Qed.

Lemma translate_no_protocol fuel svc opt book r : t_protocol (r_term r) = [] ->
  r_port r <> [] \/ r_source_port r <> [] \/ r_destination_port r <> [] ->
  translate_term fuel svc opt book r = Raise (Exn "TermPortProtocolError").
Proof.
  intros P H. unfold translate_term. rewrite P.
  assert (F : forall l, translate_field fuel svc l [] = if some l then Raise (Exn "TermPortProtocolError") else Ok []).
  { intros l. unfold translate_field. destruct (some l); reflexivity. }
  rewrite !F. destruct (r_port r); [|reflexivity]. cbn [some bind]. destruct (r_source_port r); [|reflexivity].
  cbn [some bind]. destruct (r_destination_port r); [|reflexivity]. exfalso. intuition congruence.
Qed.

(** Which exceptions the sanity check raises. *)
Lemma bind_raise (m : res unit) (k : unit -> res unit) e : bind m k = Raise e -> m = Raise e \/ k tt = Raise e.
Proof. destruct m as [[]|]; cbn [bind]; [auto|]. intros [= ->]. auto. Qed.

Lemma sanity_errors t e : sanity_check t = Raise e ->
  (exists n, e = Exn n /\ In n policy_errors) \/
  (e = Exn "KeyError" /\ t_icmp_code t <> [] /\ exists n, t_icmp_type t = [n] /\ icmp_code_table n = None).
Proof.
  assert (P : forall n, str_in n policy_errors = true -> Raise (Exn n) = @Raise unit e ->
    exists n, e = Exn n /\ In n policy_errors).
  { intros n Hn [= <-]. exists n. split; [reflexivity|]. apply str_in_spec. exact Hn. }
  unfold sanity_check. cbv zeta. intros H.
  apply bind_raise in H. destruct H as [H|H].
  { left. repeat match type of H with (if ?c then _ else _) = _ => destruct c end; try discriminate H;
    (eapply P; [|exact H]); reflexivity. }
  apply bind_raise in H. destruct H as [H|H].
  { left. match type of H with (if ?c then _ else _) = _ => destruct c end; try discriminate H;
    (eapply P; [|exact H]); reflexivity. }
  apply bind_raise in H. destruct H as [H|H].
  { unfold check_icmp_code in H. destruct (some (t_icmp_code t)) eqn:E; [|discriminate].
    apply some_true in E.
    destruct (t_icmp_type t) as [|n [|m l]]; [left; eapply P; [|exact H]; reflexivity| |left; eapply P; [|exact H]; reflexivity].
    unfold icmp_code_table. destruct (assoc n icmp_codes) eqn:Ea.
    - left. match type of H with (if ?c then _ else _) = _ => destruct c end; [discriminate|].
      eapply P; [|exact H]; reflexivity.
    - right. injection H as <-. eauto. }
  left. apply bind_raise in H. destruct H as [H|H].
  { match type of H with (if ?c then _ else _) = _ => destruct c end; try discriminate H;
    (eapply P; [|exact H]); reflexivity. }
  apply bind_raise in H. destruct H as [H|H].
  { destruct (t_ttl t) as [n|]; [|discriminate].
    repeat match type of H with (if ?c then _ else _) = _ => destruct c end; try discriminate H;
    (eapply P; [|exact H]); reflexivity. }
  destruct (t_traffic_class t) as [n|]; [|discriminate].
  repeat match type of H with (if ?c then _ else _) = _ => destruct c end; try discriminate H;
  (eapply P; [|exact H]); reflexivity.
Qed.
