(** NSX-T security policies: addresses, services, terms. *)
From Coq Require Import Lia ZifyBool ZifyNat.
From Verif Require Import SpecGce BaseFacts IPFacts PyStrFacts TextProofs PolicyProofs GenProofs GenProofs2 CiscoProofs CiscoProofs2 CiscoAcl GceProofs GceDecide QuietTerm IptAddr OpenConfigProofs JuniperProofs SpecNsx.
From Verif Require SonicProofs.
Local Open Scope string_scope.
Local Open Scope list_scope.
Local Open Scope Z_scope.

(** ** Addresses *)
Lemma covered_nil x : covered [] x <-> False.
Proof. split; [intros (n & [] & _)|intros []]. Qed.
Lemma version_valid v l : valid_list l -> valid_list (address_of_version l (Some v)).
Proof. unfold valid_list. rewrite !Forall_forall. intros H n I. apply of_version in I. apply H, I. Qed.
Lemma version_covered v l x : fst x = v -> covered (address_of_version l (Some v)) x <-> covered l x.
Proof.
  intros F. split.
  - intros (n & I & C). apply of_version in I. exists n. tauto.
  - intros (n & I & C). exists n. split; [|exact C]. apply of_version. split; [exact I|]. destruct C as (C & _). congruence.
Qed.
Lemma covered_app a b x : covered (a ++ b) x <-> covered a x \/ covered b x.
Proof.
  split; [intros (n & I & C); apply in_app_iff in I; destruct I; [left|right]; exists n; auto|].
  intros [(n & I & C)|(n & I & C)]; exists n; (split; [apply in_app_iff; auto|exact C]).
Qed.
Lemma own_address n : valid n -> covers n (nver n, naddr n).
Proof.
  intros (A & B & C). unfold covers. cbn [fst snd]. split; [reflexivity|]. assert (0 < size n) by (unfold size; apply Z.pow_pos_nonneg; lia). lia.
Qed.
Lemma zero_valid : valid nsx_zero.
Proof. repeat split; try reflexivity; try (cbn; lia). exists 0. reflexivity. Qed.
Lemma zero_covers x : covers nsx_zero x <-> x = (V4, 0).
Proof.
  destruct x as (v, x). unfold covers, nsx_zero. cbn [nver naddr fst snd]. change (size _) with 1. split; [intros (<- & H); f_equal; lia|].
  intros E. injection E as -> ->. split; [reflexivity|lia].
Qed.
Definition of_ver (v : ver) (l : list net) : Prop := forall n, In n l -> nver n = v.
Lemma of_ver_covered v l x : of_ver v l -> covered l x -> fst x = v.
Proof. intros H (n & I & C & _). rewrite <- C. apply H, I. Qed.
Lemma covers_of_ver v l : valid_list l -> (forall x, covered l x -> fst x = v) -> of_ver v l.
Proof.
  intros V H n I. unfold valid_list in V. rewrite Forall_forall in V. apply (H (nver n, naddr n)). exists n. split; [exact I|]. apply own_address, V, I.
Qed.
Lemma version_of_ver v l : of_ver v (address_of_version l (Some v)).
Proof. intros n I. apply of_version in I. apply I. Qed.
Lemma some_nil {A} (l : list A) : some l = false <-> l = [].
Proof. destruct l; cbn; split; congruence. Qed.
Lemma some_not_nil {A} (l : list A) : some l = true <-> l <> [].
Proof. destruct l; cbn; split; congruence. Qed.
(** The addresses of IPv4 on one side. *)
Lemma v4_spec zero inc exc l : valid_list inc -> valid_list exc -> nsx_v4 zero inc exc = Ok l ->
  valid_list l /\ of_ver V4 l /\
  (forall x, fst x = V4 -> x <> (V4, 0) -> covered l x <-> covered inc x /\ ~ covered exc x) /\
  (covered l (V4, 0) -> l = address_of_version inc (Some V4) /\ zero l = false).
Proof.
  intros Vi Ve H. unfold nsx_v4 in H. cbv zeta in H. pose proof (version_valid V4 inc Vi) as Va. pose proof (version_valid V4 exc Ve) as Vx.
  assert (Vz : valid_list [nsx_zero]) by (constructor; [exact zero_valid|constructor]).
  assert (Cz : forall x, covered [nsx_zero] x <-> x = (V4, 0)).
  { intros x. rewrite <- zero_covers. split; [intros (n & [<-|[]] & C); exact C|]. intros C. exists nsx_zero. split; [left; reflexivity|exact C]. }
  destruct (some (address_of_version exc (Some V4))) eqn:Se.
  - assert (Vez : valid_list (address_of_version exc (Some V4) ++ [nsx_zero])) by (apply Forall_app; split; assumption).
    destruct (exclude_ok _ _ Va Vez) as (r & E & Vr & C). rewrite E in H. apply ok_inj in H. subst r. split; [exact Vr|]. split.
    { apply covers_of_ver; [exact Vr|]. intros x X. apply C in X. destruct X as (X & _). apply (of_ver_covered V4 _ _ (version_of_ver V4 inc) X). }
    split.
    + intros x F N. rewrite C, covered_app, Cz, !version_covered by exact F. tauto.
    + intros X. apply C in X. destruct X as (_ & X). destruct X. apply covered_app. right. apply Cz. reflexivity.
  - apply some_nil in Se. assert (Ne : forall x, fst x = V4 -> ~ covered exc x).
    { intros x F X. apply (version_covered V4) in X; [|exact F]. rewrite Se in X. destruct X as (n & [] & _). }
    destruct (zero (address_of_version inc (Some V4))) eqn:Z.
    + destruct (exclude_ok _ _ Va Vz) as (r & E & Vr & C). rewrite E in H. apply ok_inj in H. subst r. split; [exact Vr|]. split.
      { apply covers_of_ver; [exact Vr|]. intros x X. apply C in X. destruct X as (X & _). apply (of_ver_covered V4 _ _ (version_of_ver V4 inc) X). }
      split.
      * intros x F N. rewrite C, Cz, version_covered by exact F. specialize (Ne x F). tauto.
      * intros X. apply C in X. destruct X as (_ & X). destruct X. apply Cz. reflexivity.
    + apply ok_inj in H. subst l. split; [exact Va|]. split; [apply version_of_ver|]. split.
      * intros x F N. rewrite version_covered by exact F. specialize (Ne x F). tauto.
      * intros _. auto.
Qed.
Lemma v6_spec inc exc l : valid_list inc -> valid_list exc -> nsx_v6 inc exc = Ok l ->
  valid_list l /\ of_ver V6 l /\ (forall x, fst x = V6 -> covered l x <-> covered inc x /\ ~ covered exc x).
Proof.
  intros Vi Ve H. unfold nsx_v6 in H. cbv zeta in H. pose proof (version_valid V6 inc Vi) as Va. pose proof (version_valid V6 exc Ve) as Vx.
  destruct (some (address_of_version exc (Some V6))) eqn:Se.
  - destruct (exclude_ok _ _ Va Vx) as (r & E & Vr & C). rewrite E in H. apply ok_inj in H. subst r. split; [exact Vr|]. split.
    { apply covers_of_ver; [exact Vr|]. intros x X. apply C in X. destruct X as (X & _). apply (of_ver_covered V6 _ _ (version_of_ver V6 inc) X). }
    intros x F. rewrite C, !version_covered by exact F. tauto.
  - apply some_nil in Se. assert (Ne : forall x, fst x = V6 -> ~ covered exc x).
    { intros x F X. apply (version_covered V6) in X; [|exact F]. rewrite Se in X. destruct X as (n & [] & _). }
    apply ok_inj in H. subst l. split; [exact Va|]. split; [apply version_of_ver|]. intros x F. rewrite version_covered by exact F. specialize (Ne x F). tauto.
Qed.
Definition net_all : net := mkNet V4 0 0 "" "" "".
Lemma all_covers x : on_net x -> range_has x "0.0.0.0/0" <-> fst x = V4.
Proof.
  intros O. assert (V : valid net_all) by (repeat split; try reflexivity; try (cbn; lia); exists 0; reflexivity).
  change "0.0.0.0/0" with (prefixlen_text net_all). rewrite (GceProofs.range_text net_all x V O). unfold covers, on_net in *. cbn [nver naddr net_all]. split; [intros (X & _); auto|].
  intros F. rewrite F in O. split; [auto|]. change (size net_all) with (2 ^ width V4). lia.
Qed.
Lemma any_spec l : valid_list l -> nsx_any l = true -> (forall x, on_net x -> fst x = V4 -> covered l x) /\ exists n, In n l /\ nver n = V4 /\ nlen n = 0.
Proof.
  intros V H. unfold nsx_any in H. apply existsb_exists in H. destruct H as (n & I & E). apply String.eqb_eq in E. unfold valid_list in V. rewrite Forall_forall in V. specialize (V n I).
  assert (C : forall x, on_net x -> fst x = V4 -> covers n x) by (intros x O F; apply GceProofs.range_text; [exact V|exact O|]; rewrite E; apply all_covers; assumption).
  split; [intros x O F; exists n; auto|]. exists n. split; [exact I|].
  destruct (C (V4, 0)) as (N & A); [unfold on_net; cbn; lia|reflexivity|]. destruct (C (V4, 2 ^ 32 - 1)) as (_ & B); [unfold on_net; cbn; lia|reflexivity|]. cbn [fst snd] in *. split; [exact N|].
  destruct V as (V1 & _). unfold size in *. rewrite N in *. cbn [width] in *. destruct (Z.eq_dec (nlen n) 0) as [Z|Z]; [exact Z|exfalso].
  assert (2 ^ (32 - nlen n) <= 2 ^ 31) by (apply Z.pow_le_mono_r; lia). change (2 ^ 31) with 2147483648 in *. change (2 ^ 32) with 4294967296 in *. lia.
Qed.
Lemma no_any l : of_ver V4 l -> nsx_any l = false -> forall n, In n l -> naddr n = 0 -> nlen n <> 0.
Proof.
  intros O H n I A L. unfold nsx_any in H. rewrite existsb_false in H. specialize (H n I). unfold prefixlen_text in H. rewrite (O n I), A, L in H. discriminate H.
Qed.

(** What a list of addresses says when none stands for all. *)
Definition grp (l : list net) (x : ipaddr) : Prop := l = [] \/ covered l x.
Lemma nil_or_not {A} (l : list A) : l = [] \/ l <> [].
Proof. destruct l; [left; reflexivity|right; discriminate]. Qed.
Definition of_vers (vs : list ver) (v : ver) : bool := existsb (ver_eqb v) vs.
(** One side, both families. *)
Lemma side_spec vs zero inc exc l4 l6 : In vs [[V4]; [V6]; [V4; V6]] -> nsx_side_ok vs inc exc ->
  (if of_vers vs V4 && some inc then nsx_v4 zero inc exc else Ok []) = Ok l4 ->
  (if of_vers vs V6 && some inc then nsx_v6 inc exc else Ok []) = Ok l6 ->
  valid_list l4 /\ valid_list l6 /\ of_ver V4 l4 /\ of_ver V6 l6 /\
  (forall x, In (fst x) vs -> on_net x -> x <> (V4, 0) -> grp (nsx_listed l4 ++ l6) x <-> side_matches inc exc x) /\
  (covered l4 (V4, 0) -> l4 = address_of_version inc (Some V4) /\ zero l4 = false).
Proof.
  intros Hv (Vi & Ve & [(-> & ->)|(Ni & (y & Y1 & Y2 & Y3 & Y4) & Ma)]) H4 H6.
  - cbn [some] in *. rewrite andb_false_r in *. apply ok_inj in H4, H6. subst l4 l6.
    split; [constructor|]. split; [constructor|]. split; [intros n []|]. split; [intros n []|]. split; [|intros (n & [] & _)].
    intros x _ _ _. unfold grp, side_matches. cbn. rewrite covered_nil. intuition.
  - assert (Si : some inc = true) by (apply some_not_nil, Ni). rewrite Si, andb_true_r in *.
    assert (Sm : forall x, side_matches inc exc x <-> covered inc x /\ ~ covered exc x) by (intros x; unfold side_matches; tauto).
    assert (X4 : valid_list l4 /\ of_ver V4 l4 /\ (In V4 vs -> forall x, fst x = V4 -> x <> (V4, 0) -> covered l4 x <-> covered inc x /\ ~ covered exc x) /\
      (covered l4 (V4, 0) -> l4 = address_of_version inc (Some V4) /\ zero l4 = false) /\ (of_vers vs V4 = false -> l4 = [])).
    { destruct (of_vers vs V4) eqn:Ev.
      - destruct (v4_spec _ _ _ _ Vi Ve H4) as (A & B & C & D). repeat (split; [auto|]). discriminate.
      - apply ok_inj in H4. subst l4. split; [constructor|]. split; [intros n []|]. split; [|split; [intros (n & [] & _)|reflexivity]].
        intros I. exfalso. unfold of_vers in Ev. rewrite existsb_false in Ev. specialize (Ev V4 I). discriminate Ev. }
    assert (X6 : valid_list l6 /\ of_ver V6 l6 /\ (In V6 vs -> forall x, fst x = V6 -> covered l6 x <-> covered inc x /\ ~ covered exc x) /\ (of_vers vs V6 = false -> l6 = [])).
    { destruct (of_vers vs V6) eqn:Ev.
      - destruct (v6_spec _ _ _ Vi Ve H6) as (A & B & C). repeat (split; [auto|]). discriminate.
      - apply ok_inj in H6. subst l6. split; [constructor|]. split; [intros n []|]. split; [|reflexivity].
        intros I. exfalso. unfold of_vers in Ev. rewrite existsb_false in Ev. specialize (Ev V6 I). discriminate Ev. }
    destruct X4 as (V4l & O4 & C4 & Z4 & E4), X6 as (V6l & O6 & C6 & E6). split; [exact V4l|]. split; [exact V6l|]. split; [exact O4|]. split; [exact O6|]. split; [|exact Z4].
    (* the address that is left *)
    assert (Ne : l4 ++ l6 <> []).
    { intros X. apply app_eq_nil in X. destruct X as (-> & ->). apply Sm in Y4. destruct (fst y) eqn:Fy.
      - apply (C4 Y1 y Fy Y3) in Y4. destruct Y4 as (n & [] & _).
      - apply (C6 Y1 y Fy) in Y4. destruct Y4 as (n & [] & _). }
    assert (All : forall x, In (fst x) vs -> on_net x -> x <> (V4, 0) -> covered (l4 ++ l6) x <-> side_matches inc exc x).
    { intros x F O N. rewrite covered_app, Sm. destruct (fst x) eqn:Fx.
      - rewrite (C4 F x Fx N). split; [intros [X|X]; [exact X|]|auto]. apply (of_ver_covered V6 _ _ O6) in X. congruence.
      - rewrite (C6 F x Fx). split; [intros [X|X]; [|exact X]|auto]. apply (of_ver_covered V4 _ _ O4) in X. congruence. }
    intros x F O N. rewrite <- (All x F O N). unfold grp, nsx_listed. destruct (nsx_any l4) eqn:An.
    + destruct (any_spec _ V4l An) as (A & n & In_ & Nv & Nl).
      assert (vs = [V4]).
      { destruct Hv as [<-|[<-|[<-|[]]]]; [reflexivity| |].
        - rewrite (E4 eq_refl) in In_. destruct In_.
        - exfalso. destruct (Z4) as (El & _); [apply A; [unfold on_net; cbn; lia|reflexivity]|]. rewrite El in In_. apply of_version in In_. exact (Ma eq_refl n (proj1 In_) Nv Nl). }
      subst vs. rewrite (E6 eq_refl) in *. cbn [app]. split; [intros _|intros _; left; reflexivity]. rewrite app_nil_r. apply A; [exact O|]. destruct F as [F|[]]. auto.
    + split; [intros [X|X]; [congruence|exact X]|auto].
Qed.
(** Sides of different families. *)
Lemma mismatch_spec mixed s4 s6 d4 d6 : of_ver V4 s4 -> of_ver V6 s6 -> of_ver V4 d4 -> of_ver V6 d6 ->
  match nsx_mismatch mixed (s4, s6) (d4, d6) with
  | None => forall x y, fst x = fst y -> ~ (grp (s4 ++ s6) x /\ grp (d4 ++ d6) y)
  | Some (a, b) => incl a (s4 ++ s6) /\ incl b (d4 ++ d6) /\ forall x y, fst x = fst y -> (grp a x /\ grp b y <-> grp (s4 ++ s6) x /\ grp (d4 ++ d6) y)
  end.
Proof.
  intros S4 S6 D4 D6. unfold nsx_mismatch. destruct (mixed && some (s4 ++ s6) && some (d4 ++ d6)) eqn:E.
  2: { split; [apply incl_refl|]. split; [apply incl_refl|]. reflexivity. }
  apply andb_true_iff in E. destruct E as (E & Nd). apply andb_true_iff in E. destruct E as (_ & Ns). apply some_not_nil in Nd, Ns.
  assert (G : forall l x, l <> [] -> grp l x <-> covered l x) by (intros l x N; unfold grp; tauto).
  assert (Nil : forall x, ~ covered [] x) by (intros x (n & [] & _)).
  assert (F4 : forall l x, of_ver V4 l -> covered l x -> fst x = V4) by (intros l x; apply of_ver_covered).
  assert (F6 : forall l x, of_ver V6 l -> covered l x -> fst x = V6) by (intros l x; apply of_ver_covered).
  assert (Sub1 : forall {A} (a b : list A), incl a (a ++ b)) by (intros A a b n I; apply in_app_iff; auto).
  assert (Sub2 : forall {A} (a b : list A), incl b (a ++ b)) by (intros A a b n I; apply in_app_iff; auto).
  assert (Cr : forall x y, fst x = fst y -> covered (s4 ++ s6) x /\ covered (d4 ++ d6) y <-> (covered s4 x /\ covered d4 y) \/ (covered s6 x /\ covered d6 y)).
  { intros x y Fx. rewrite !covered_app. split; [|tauto]. intros ([A|A] & [B|B]); auto.
    - apply (F4 _ _ S4) in A. apply (F6 _ _ D6) in B. congruence.
    - apply (F6 _ _ S6) in A. apply (F4 _ _ D4) in B. congruence. }
  destruct (some s4 && negb (some d4)) eqn:E1; [|destruct (some s6 && negb (some d6)) eqn:E2; [|destruct (some d4 && negb (some s4)) eqn:E3; [|destruct (some d6 && negb (some s6)) eqn:E4]]].
  - apply andb_true_iff in E1. destruct E1 as (_ & E1). apply negb_true_iff, some_nil in E1. subst d4. destruct (nil_or_not s6) as [->|N6].
    + cbn [some negb orb]. intros x y Fx. rewrite !G by assumption. rewrite (Cr x y Fx). intros [(_ & X)|(X & _)]; exact (Nil _ X).
    + rewrite (proj2 (some_not_nil s6) N6), (proj2 (some_not_nil _) Nd). cbn [negb orb]. split; [apply Sub2|]. split; [apply incl_refl|]. intros x y Fx. rewrite !G by assumption.
      rewrite (Cr x y Fx). cbn [app]. split; [auto|]. intros [(_ & X)|X]; [destruct (Nil _ X)|exact X].
  - apply andb_true_iff in E2. destruct E2 as (_ & E2). apply negb_true_iff, some_nil in E2. subst d6. destruct (nil_or_not s4) as [->|N4].
    + cbn [some negb orb]. intros x y Fx. rewrite !G by assumption. rewrite (Cr x y Fx). intros [(X & _)|(_ & X)]; exact (Nil _ X).
    + rewrite (proj2 (some_not_nil s4) N4), (proj2 (some_not_nil _) Nd). cbn [negb orb]. split; [apply Sub1|]. split; [apply incl_refl|]. intros x y Fx. rewrite !G by assumption.
      rewrite (Cr x y Fx), app_nil_r. split; [auto|]. intros [X|(_ & X)]; [exact X|destruct (Nil _ X)].
  - apply andb_true_iff in E3. destruct E3 as (_ & E3). apply negb_true_iff, some_nil in E3. subst s4. destruct (nil_or_not d6) as [->|N6].
    + cbn [app] in Ns. rewrite (proj2 (some_not_nil s6) Ns) in E2. discriminate E2.
    + rewrite (proj2 (some_not_nil d6) N6), (proj2 (some_not_nil _) Ns). cbn [negb orb]. split; [apply incl_refl|]. split; [apply Sub2|]. intros x y Fx. rewrite !G by assumption.
      rewrite (Cr x y Fx). cbn [app]. split; [auto|]. intros [(X & _)|X]; [destruct (Nil _ X)|exact X].
  - apply andb_true_iff in E4. destruct E4 as (_ & E4). apply negb_true_iff, some_nil in E4. subst s6. destruct (nil_or_not d4) as [->|N4].
    + rewrite app_nil_r in Ns. rewrite (proj2 (some_not_nil s4) Ns) in E1. discriminate E1.
    + rewrite (proj2 (some_not_nil d4) N4), (proj2 (some_not_nil _) Ns). cbn [negb orb]. split; [apply incl_refl|]. split; [apply Sub1|]. intros x y Fx. rewrite !G by assumption.
      rewrite (Cr x y Fx), app_nil_r. split; [auto|]. intros [X|(X & _)]; [exact X|destruct (Nil _ X)].
  - rewrite (proj2 (some_not_nil _) Nd), (proj2 (some_not_nil _) Ns). cbn [negb orb]. split; [apply incl_refl|]. split; [apply incl_refl|]. reflexivity.
Qed.
(** What is written of a list. *)
Lemma text_not_any n : prefixlen_text n <> "ANY".
Proof.
  intros E. assert (H : has_char "/" (prefixlen_text n) = true).
  { unfold prefixlen_text. assert (U : has_char "/" (append "/" (dec (nlen n))) = true) by reflexivity. revert U. generalize (append "/" (dec (nlen n))). intros u U.
    generalize (addr_text (nver n) (naddr n)). intros s. induction s as [|c s IH]; [exact U|]. cbn [append has_char]. rewrite IH. apply orb_true_r. }
  rewrite E in H. discriminate H.
Qed.
Lemma group_texts l s : (exists m, nsx_group l = JList m /\ In (JStr s) m) <-> (l = [] /\ s = "ANY") \/ exists n, In n l /\ s = prefixlen_text n.
Proof.
  unfold nsx_group. destruct (nil_or_not l) as [->|N].
  - cbn [some]. split; [intros (m & E & I); injection E as <-; destruct I as [E|[]]; injection E as <-; auto|]. intros [(_ & ->)|(n & [] & _)]. eexists. split; [reflexivity|left; reflexivity].
  - rewrite (proj2 (some_not_nil l) N). split.
    + intros (m & E & I). injection E as <-. apply in_map_iff in I. destruct I as (n & E & I). injection E as <-. right. exists n. auto.
    + intros [(X & _)|(n & I & ->)]; [contradiction|]. eexists. split; [reflexivity|]. apply in_map_iff. exists n. auto.
Qed.
Lemma group_says_grp l x : valid_list l -> on_net x -> texts (nsx_group l) (group_says x) <-> grp l x.
Proof.
  intros V O. unfold valid_list in V. rewrite Forall_forall in V. unfold texts, group_says, grp. split.
  - intros (m & s & E & I & S). destruct (proj1 (group_texts l s)) as [(-> & _)|(n & In_ & ->)]; [eauto|auto|]. destruct S as [S|S]; [destruct (text_not_any n S)|].
    right. exists n. split; [exact In_|]. apply GceProofs.range_text; auto.
  - intros G. assert (X : exists s, (exists m, nsx_group l = JList m /\ In (JStr s) m) /\ (s = "ANY" \/ range_has x s)).
    { destruct G as [->|(n & I & C)]; [exists "ANY"; rewrite group_texts; auto|]. exists (prefixlen_text n). rewrite group_texts. split; [right; exists n; auto|]. right. apply GceProofs.range_text; auto. }
    destruct X as (s & (m & E & I) & S). exists m, s. auto.
Qed.
Lemma range_any x : ~ range_has x "ANY".
Proof.
  intros (a & len & E & _). discriminate E.
Qed.

(** ** Services *)
Lemma ports_meaning l n : (forall r, In r l -> 0 <= fst r /\ 0 <= snd r) ->
  if_given (if some l then Some (JList (map nsx_port l)) else None) (fun j => texts j (fun s => in_text_range s n)) <-> ports_match l n.
Proof.
  intros H. unfold ports_match, in_ports. destruct (nil_or_not l) as [->|N]; [cbn; split; [left; reflexivity|intros _; exact Logic.I]|].
  rewrite (proj2 (some_not_nil l) N). cbn [if_given]. unfold texts. split.
  - intros (m & s & E & I & S). right. injection E as <-. apply in_map_iff in I. destruct I as (r & E & I). unfold nsx_port in E.
    assert (Es : s = ModelJuniper.port_text r) by congruence. subst s. exists r. split; [exact I|]. destruct (H r I). apply port_text_says in S; assumption.
  - intros [X|(r & I & S)]; [contradiction|]. exists (map nsx_port l), (ModelJuniper.port_text r). split; [reflexivity|]. split; [apply in_map_iff; exists r; auto|].
    destruct (H r I). apply port_text_says; assumption.
Qed.
Lemma l4_says w sp dp p : (forall r, In r (sp ++ dp) -> 0 <= fst r /\ 0 <= snd r) ->
  entry_says p (JDict ([("l4_protocol", JStr w); ("resource_type", JStr "L4PortSetServiceEntry")]
                    ++ (if some sp then [("source_ports", JList (map nsx_port sp))] else [])
                    ++ (if some dp then [("destination_ports", JList (map nsx_port dp))] else []))) <->
  ((w = "TCP" /\ p_proto p = "tcp") \/ (w = "UDP" /\ p_proto p = "udp")) /\ ports_match sp (p_sport p) /\ ports_match dp (p_dport p).
Proof.
  intros H. match goal with |- entry_says p ?e <-> _ => set (e0 := e) end.
  assert (P1 : path ["source_ports"] e0 = if some sp then Some (JList (map nsx_port sp)) else None) by (destruct sp, dp; reflexivity).
  assert (P2 : path ["destination_ports"] e0 = if some dp then Some (JList (map nsx_port dp)) else None) by (destruct sp, dp; reflexivity).
  assert (P3 : path ["resource_type"] e0 = Some (JStr "L4PortSetServiceEntry")) by reflexivity.
  assert (P4 : path ["l4_protocol"] e0 = Some (JStr w)) by reflexivity.
  unfold entry_says, is_text, given. rewrite P1, P2, P3, P4, !ports_meaning by (intros r I; apply H, in_app_iff; auto). split.
  - intros [(X & _)|(_ & [(E & X)|(E & X)] & Y)]; [discriminate X| |]; injection E as ->; auto.
  - intros (X & Y). right. split; [reflexivity|]. split; [|exact Y]. destruct X as [(-> & X)|(-> & X)]; auto.
Qed.
Lemma icmp_says (v : ver) o p :
  entry_says p (JDict ([("protocol", JStr (match v with V4 => "ICMPv4" | V6 => "ICMPv6" end)); ("resource_type", JStr "ICMPTypeServiceEntry")] ++ match o with Some k => [("icmp_type", JNum k)] | None => [] end)) <->
  p_proto p = (match v with V4 => "icmp" | V6 => "icmpv6" end) /\ forall k, o = Some k -> In (p_icmp_type p, k) (icmp_types_of v).
Proof.
  match goal with |- entry_says p ?e <-> _ => set (e0 := e) end.
  assert (P1 : path ["icmp_type"] e0 = option_map JNum o) by (destruct o; reflexivity).
  assert (P3 : path ["resource_type"] e0 = Some (JStr "ICMPTypeServiceEntry")) by reflexivity.
  assert (P4 : path ["protocol"] e0 = Some (JStr (match v with V4 => "ICMPv4" | V6 => "ICMPv6" end))) by reflexivity.
  unfold entry_says, is_text, given. rewrite P1, P3, P4.
  assert (G : forall table, if_given (option_map JNum o) (fun j => exists n, j = JNum n /\ In (p_icmp_type p, n) table) <-> forall k, o = Some k -> In (p_icmp_type p, k) table).
  { intros table. destruct o as [k|]; cbn [option_map if_given]; [|split; [discriminate|auto]]. split; [intros (n & E & I) k' E'; congruence|]. intros X. exists k. auto. }
  rewrite !G. destruct v; unfold icmp_types_of; split.
  - intros [(_ & [(_ & X)|(X & _)])|(X & _)]; [exact X|discriminate X|discriminate X].
  - intros X. left. auto.
  - intros [(_ & [(X & _)|(_ & X)])|(X & _)]; [discriminate X|exact X|discriminate X].
  - intros X. left. auto.
Qed.
Definition nsx_known : list string := ["tcp"; "udp"; "icmp"; "icmpv6"].
Lemma service_spec q sp dp types p : In q nsx_known -> (forall r, In r (sp ++ dp) -> 0 <= fst r /\ 0 <= snd r) ->
  ((exists e, In e (nsx_service (assoc q proto_map) sp dp types) /\ entry_says p e) <->
   p_proto p = q /\ (In q ["tcp"; "udp"] -> ports_match sp (p_sport p) /\ ports_match dp (p_dport p)) /\
   forall v : ver, q = (match v with V4 => "icmp" | V6 => "icmpv6" end) -> types = [] \/ exists k, In k types /\ In (p_icmp_type p, k) (icmp_types_of v)) /\
  nsx_service (assoc q proto_map) sp dp types <> [].
Proof.
  intros Hq Hr.
  assert (Ic : forall v : ver, q = (match v with V4 => "icmp" | V6 => "icmpv6" end) ->
    nsx_service (assoc q proto_map) sp dp types = map (fun o => JDict ([("protocol", JStr (match v with V4 => "ICMPv4" | V6 => "ICMPv6" end)); ("resource_type", JStr "ICMPTypeServiceEntry")] ++ match o with Some k => [("icmp_type", JNum k)] | None => [] end)) (or_any types)).
  { intros v ->. destruct v; cbn [assoc proto_map String.eqb]; unfold nsx_service; destruct types as [|k types]; cbn [or_any map some]; try reflexivity; rewrite map_map; reflexivity. }
  assert (Ie : forall v : ver, q = (match v with V4 => "icmp" | V6 => "icmpv6" end) ->
    ((exists e, In e (nsx_service (assoc q proto_map) sp dp types) /\ entry_says p e) <->
     p_proto p = q /\ (types = [] \/ exists k, In k types /\ In (p_icmp_type p, k) (icmp_types_of v))) /\ nsx_service (assoc q proto_map) sp dp types <> []).
  { intros v Eq. rewrite (Ic v Eq). split; [|destruct types; discriminate]. split.
    - intros (e & I & S). apply in_map_iff in I. destruct I as (o & <- & I). apply icmp_says in S. destruct S as (S1 & S2). split; [congruence|].
      apply or_any_in in I. destruct I as [(_ & ->)|(k & -> & I)]; [left; reflexivity|right; exists k; auto].
    - intros (S1 & [->|(k & I & S)]).
      + exists (JDict ([("protocol", JStr (match v with V4 => "ICMPv4" | V6 => "ICMPv6" end)); ("resource_type", JStr "ICMPTypeServiceEntry")] ++ [])). split; [left; reflexivity|].
        apply (icmp_says v None). split; [congruence|discriminate].
      + eexists. split; [apply in_map, or_any_in; right; exists k; split; [reflexivity|exact I]|]. apply icmp_says. split; [congruence|]. intros k' E. injection E as <-. exact S. }
  destruct Hq as [<-|[<-|[<-|[<-|[]]]]].
  1, 2: (split; [|discriminate]); match goal with |- context[nsx_service ?o _ _ _] => let r := eval cbn in o in change o with r end;
    unfold nsx_service; match goal with |- context[zassoc ?k nsx_protocols] => let r := eval vm_compute in (zassoc k nsx_protocols) in change (zassoc k nsx_protocols) with r end; cbv iota;
    match goal with |- context[(?a =? 1) || (?b =? 58)] => change ((a =? 1) || (b =? 58)) with false end; cbv iota.
  - split.
    + intros (e & [<-|[]] & S). apply (l4_says "TCP" sp dp p Hr) in S. destruct S as ([(_ & S)|(X & _)] & P); [|discriminate X]. split; [exact S|]. split; [auto|]. intros [|] X; discriminate X.
    + intros (S & P & _). eexists. split; [left; reflexivity|]. apply (l4_says "TCP" sp dp p Hr). split; [auto|]. apply P. cbn; auto.
  - split.
    + intros (e & [<-|[]] & S). apply (l4_says "UDP" sp dp p Hr) in S. destruct S as ([(X & _)|(_ & S)] & P); [discriminate X|]. split; [exact S|]. split; [auto|]. intros [|] X; discriminate X.
    + intros (S & P & _). eexists. split; [left; reflexivity|]. apply (l4_says "UDP" sp dp p Hr). split; [auto|]. apply P. cbn; auto.
  - destruct (Ie V4 eq_refl) as (A & B). split; [|exact B]. rewrite A. split.
    + intros (S & T). split; [exact S|]. split; [intros [X|[X|[]]]; discriminate X|]. intros [|] X; [exact T|discriminate X].
    + intros (S & _ & T). split; [exact S|]. apply (T V4). reflexivity.
  - destruct (Ie V6 eq_refl) as (A & B). split; [|exact B]. rewrite A. split.
    + intros (S & T). split; [exact S|]. split; [intros [X|[X|[]]]; discriminate X|]. intros [|] X; [discriminate X|exact T].
    + intros (S & _ & T). split; [exact S|]. apply (T V6). reflexivity.
Qed.
(** The types of ICMP of a term. *)
Lemma types_nonneg w s k : In (s, k) (icmp_types_of w) -> 0 <= k.
Proof.
  assert (H : forall v : ver, forallb (fun e : string * Z => 0 <=? snd e) (icmp_types_of v) = true) by (intros [|]; vm_compute; reflexivity).
  specialize (H w). rewrite forallb_forall in H. intros I. apply H in I. cbn [snd] in I. lia.
Qed.
Lemma types_spec w t types p : (if some (t_icmp_type t) then normalize_icmp_types (t_icmp_type t) (t_protocol t) (AfNum (ver_number w)) else Ok None) = Ok types ->
  (t_icmp_type t <> [] -> t_protocol t = [match w with V4 => "icmp" | V6 => "icmpv6" end]) /\
  (t_icmp_type t = [] -> types = None) /\
  ((match types with Some l => l | None => [] end = [] \/ exists k, In k (match types with Some l => l | None => [] end) /\ In (p_icmp_type p, k) (icmp_types_of w)) <-> any_or (t_icmp_type t) (eq (p_icmp_type p))).
Proof.
  intros H. destruct (SonicProofs.sn_icmp_meaning w t types p H) as (A & B). split; [exact A|]. split; [intros E; rewrite E in H; cbn [some] in H; apply ok_inj in H; auto|].
  rewrite <- B. set (l := match types with Some l => l | None => [] end). split.
  - intros [E|(k & I & S)].
    + exists None. split; [apply or_any_in; auto|exact Logic.I].
    + exists (Some k). split; [apply or_any_in; right; exists k; auto|]. cbn [option_map if_given]. exists k. split; [|exact S]. apply SonicProofs.number_dec; [exact (types_nonneg _ _ _ S)|reflexivity].
  - intros (i & I & S). apply or_any_in in I. destruct I as [(_ & E)|(k & -> & I)]; [left; exact E|right]. exists k. split; [exact I|]. cbn [option_map if_given] in S.
    destruct S as (m & M & S). pose proof (types_nonneg _ _ _ S) as Hm. destruct M as (s & E & M). injection E as <-.
    destruct (Z_le_gt_dec 0 k) as [Hk|Hk]; [rewrite dec_value in M by exact Hk; congruence|]. exfalso.
    unfold l in I. destruct types as [ls|]; [|destruct I]. destruct (t_icmp_type t) as [|y ys] eqn:Et; cbn [some] in H; [discriminate H|]. apply normalize_icmp_ok in H.
    destruct H as (_ & _ & n & table & nums & Fam & _ & F2 & Pm). apply (Permutation.Permutation_in _ Pm) in I.
    destruct (NamingProofs.Forall2_in_r _ _ _ _ F2 I) as (u & _ & U).
    assert (In (u, k) table) by exact U.
    destruct Fam as [(_ & _ & ->)|(_ & _ & ->)]; [apply (types_nonneg V4) in U|apply (types_nonneg V6) in U]; lia.
Qed.
