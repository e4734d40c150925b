(** Proofs about exclude_address, RemoveAddressFromList and AddressListExclude. *)
From Coq Require Import Lia ZifyBool ZifyNat Permutation Sorted.
From Verif Require Import SpecIP IPFacts BaseFacts CollapseProofs.
Local Open Scope Z_scope.

(** ** Trailing zeros *)
Lemma odd_part (p : positive) : exists k m, 0 <= k /\ 0 <= m /\ Zpos p = 2 ^ k * (2 * m + 1).
Proof.
  induction p as [p IH|p IH|].
  - exists 0, (Zpos p). lia.
  - destruct IH as (k & m & Hk & Hm & E). exists (k + 1), m. repeat split; try lia.
    rewrite Pos2Z.inj_xO, E, Z.pow_add_r by lia. lia.
  - exists 0, 0. lia.
Qed.

Lemma low_ones k m : 0 <= k -> 0 <= m ->
  let n := 2 ^ k * (2 * m + 1) in
  Z.land (Z.lnot n) (n - 1) = 2 ^ k - 1.
Proof.
  intros Hk Hm n.
  assert (E : n - 1 = Z.lor (2 * m * 2 ^ k) (2 ^ k - 1)).
  { rewrite lor_low; [unfold n; lia|lia|exists (2 * m); lia]. }
  apply Z.bits_inj'. intros i Hi.
  rewrite Z.land_spec, Z.lnot_spec, E, Z.lor_spec, !testbit_ones_pow by lia.
  unfold n. rewrite (Z.mul_comm (2 ^ k)).
  destruct (i <? k) eqn:Ei.
  - rewrite Z.mul_pow2_bits_low by lia. rewrite orb_true_r. reflexivity.
  - rewrite orb_false_r. rewrite !Z.mul_pow2_bits by lia.
    destruct (Z.eq_dec (i - k) 0) as [E0|Hn0].
    + rewrite E0, Z.testbit_even_0. apply andb_false_r.
    + replace (i - k) with (Z.succ (i - k - 1)) by lia.
      rewrite Z.testbit_odd_succ, Z.testbit_even_succ by lia. apply andb_negb_l.
Qed.

Lemma bit_length_ones k : 0 <= k -> bit_length (2 ^ k - 1) = k.
Proof.
  intros Hk. unfold bit_length. destruct (2 ^ k - 1 =? 0) eqn:E.
  - destruct (Z.eq_dec k 0); [lia|].
    assert (2 ^ 1 <= 2 ^ k) by (apply Z.pow_le_mono_r; lia). lia.
  - destruct (Z.eq_dec k 0) as [->|]; [simpl in E; lia|].
    replace (2 ^ k - 1) with (Z.pred (2 ^ k)) by lia.
    rewrite Z.log2_pred_pow2 by lia. lia.
Qed.

(** Number of trailing zeros, capped at w. *)
Lemma ctz_spec n w : 0 <= n -> 0 <= w ->
  let c := count_righthand_zero_bits n w in
  0 <= c <= w /\ (2 ^ c | n) /\ (c = w \/ ~ (2 ^ (c + 1) | n)).
Proof.
  intros Hn Hw c. unfold c, count_righthand_zero_bits.
  destruct (n =? 0) eqn:E.
  - split; [lia|]. split; [exists 0; lia|auto].
  - destruct n as [|p|p]; try lia. destruct (odd_part p) as (k & m & Hk & Hm & Ep).
    rewrite Ep, low_ones, bit_length_ones by lia.
    split; [lia|]. split.
    + apply Z.divide_trans with (2 ^ k); [apply pow2_divides; lia|exists (2 * m + 1); lia].
    + destruct (Z_le_gt_dec w k); [left; lia|right]. replace (Z.min w k) with k by lia.
      intros [q Hq]. rewrite Z.pow_add_r in Hq by lia.
      pose proof (pow2_pos k Hk).
      assert (2 * m + 1 = 2 * q) by nia. lia.
Qed.

Lemma ctz_ge n w k : 0 <= n -> 0 <= k <= w -> (2 ^ k | n) -> k <= count_righthand_zero_bits n w.
Proof.
  intros Hn Hk Hd. destruct (ctz_spec n w Hn ltac:(lia)) as (H1 & _ & [H3|H3]); [lia|].
  destruct (Z_le_gt_dec k (count_righthand_zero_bits n w)); [assumption|exfalso].
  apply H3. apply Z.divide_trans with (2 ^ k); [apply pow2_divides; lia|assumption].
Qed.

Lemma bit_length_log2 r : 0 < r -> bit_length r - 1 = Z.log2 r.
Proof. intros H. unfold bit_length. destruct (r =? 0) eqn:E; lia. Qed.

(** ** summarize_address_range *)
Definition in_range (v : ver) (first last : Z) (x : ipaddr) : Prop :=
  fst x = v /\ first <= snd x <= last.

Definition fuel_need (v : ver) (first last : Z) : Z :=
  let c := count_righthand_zero_bits first (width v) in
  let l := Z.log2 (last - first + 1) in
  if c <? l then (width v - c) + width v + 2 else l + 2.

Lemma summarize_loop_spec v : forall fuel first last,
  0 <= first -> last < 2 ^ width v ->
  first <= last + 1 ->
  (first <= last -> fuel_need v first last <= Z.of_nat fuel) -> (1 <= fuel)%nat ->
  exists r, summarize_loop fuel v first last = Ok r /\ valid_list r /\
    StronglySorted before r /\ (List.length r <= fuel)%nat /\
    Forall (fun n => nver n = v /\ ntext n = ""%string /\ ntoken n = ""%string /\ first <= naddr n /\ naddr n + size n <= last + 1) r /\
    forall x, covered r x <-> in_range v first last x.
Proof.
  induction fuel as [|fuel IH]; intros first last Hf Hl Hfl Hfuel H1; [lia|].
  cbn [summarize_loop]. destruct (first <=? last) eqn:E.
  2:{ exists []. split; [reflexivity|]. split; [constructor|]. split; [constructor|].
      split; [simpl; lia|]. split; [constructor|].
      intros x. rewrite covered_nil. unfold in_range. split; [tauto|lia]. }
  set (w := width v) in *. pose proof (width_pos v) as Hw. fold w in Hw.
  set (c := count_righthand_zero_bits first w) in *.
  rewrite bit_length_log2 by lia. set (r := last - first + 1) in *.
  set (l := Z.log2 r) in *.
  destruct (ctz_spec first w Hf ltac:(lia)) as (C1 & C2 & C3). fold c in C1, C2, C3.
  destruct (Z.log2_spec r ltac:(lia)) as [L1 L2]. fold l in L1, L2.
  assert (L0 : 0 <= l) by apply Z.log2_nonneg.
  assert (Lw : l <= w).
  { destruct (Z_le_gt_dec l w) as [|Hgt]; [assumption|].
    assert (2 ^ w < 2 ^ l) by (apply Z.pow_lt_mono_r; lia). lia. }
  set (nb := Z.min c l). assert (Hnb : 0 <= nb <= w) by lia.
  rewrite Z.shiftl_1_l.
  pose proof (pow2_pos nb ltac:(lia)) as Pnb.
  assert (Hle : 2 ^ nb <= r).
  { apply Z.le_trans with (2 ^ l); [apply Z.pow_le_mono_r; lia|lia]. }
  set (n := plain v first (w - nb)).
  assert (Hsz : size n = 2 ^ nb).
  { unfold size, n, plain; cbn [nver nlen]. f_equal. fold w. lia. }
  assert (Vn : valid n).
  { split; [cbn [nlen nver n plain]; fold w; lia|]. split.
    - cbn [naddr nver n plain]. fold w. lia.
    - rewrite Hsz. cbn [naddr n plain]. apply Z.divide_trans with (2 ^ c); [apply pow2_divides; lia|assumption]. }
  assert (Cn : forall x, covers n x <-> fst x = v /\ first <= snd x < first + 2 ^ nb).
  { intros x. unfold covers. rewrite Hsz. cbn [nver naddr n plain]. intuition congruence. }
  assert (Hnn : nver n = v /\ ntext n = ""%string /\ ntoken n = ""%string /\ first <= naddr n /\ naddr n + size n <= last + 1).
  { rewrite Hsz. cbn [nver naddr n plain ntext ntoken]. repeat split; lia. }
  destruct (first + 2 ^ nb - 1 =? all_ones v) eqn:Eall.
  { unfold all_ones in Eall. fold w in Eall. exists [n].
    assert (Elast : last = first + 2 ^ nb - 1) by lia.
    split; [reflexivity|]. split; [constructor; [assumption|constructor]|].
    split; [repeat constructor|]. split; [simpl; lia|]. split; [constructor; [exact Hnn|constructor]|].
    intros x. rewrite covered_cons, covered_nil, Cn. unfold in_range. rewrite Elast. intuition lia. }
  clear Eall.
  specialize (Hfuel ltac:(lia)). unfold fuel_need in Hfuel. fold w c r l in Hfuel.
  assert (Hfuel1 : (1 <= fuel)%nat).
  { destruct (c <? l) eqn:Ecl; lia. }
  destruct (IH (first + 2 ^ nb) last) as (rest & R1 & R2 & R3 & R4 & R5 & R6); try assumption; try lia.
  { intros Hcont. unfold fuel_need. fold w.
    set (c' := count_righthand_zero_bits (first + 2 ^ nb) w) in *.
    set (r' := last - (first + 2 ^ nb) + 1) in *. set (l' := Z.log2 r').
    assert (Hr' : r' = r - 2 ^ nb) by lia.
    assert (L0' : 0 <= l') by apply Z.log2_nonneg.
    assert (Hl' : l' <= l) by (apply Z.log2_le_mono; lia).
    destruct (c <? l) eqn:Ecl.
    - assert (Hc' : c + 1 <= c').
      { apply ctz_ge; [lia|lia|]. replace nb with c in * by lia.
        destruct C3 as [C3|C3]; [lia|]. destruct C2 as [q Hq].
        rewrite Z.pow_add_r by lia.
        assert (Hodd : q mod 2 = 1).
        { destruct (Z.eq_dec (q mod 2) 1) as [|Hq2]; [assumption|exfalso]. apply C3.
          exists (q / 2). rewrite Z.pow_add_r by lia.
          pose proof (Z.div_mod q 2). pose proof (Z.mod_pos_bound q 2). nia. }
        exists (q / 2 + 1). pose proof (Z.div_mod q 2). nia. }
      destruct (c' <? l') eqn:Ec'; lia.
    - replace nb with l in * by lia.
      assert (Hr2 : r' < 2 ^ l).
      { rewrite Z.pow_succ_r in L2 by lia. lia. }
      assert (Hl2 : l' < l). { apply Z.log2_lt_pow2; lia. }
      assert (Hc' : l <= c').
      { apply ctz_ge; [lia|lia|]. apply Z.divide_add_r; [|replace nb with l by lia; apply Z.divide_refl].
        apply Z.divide_trans with (2 ^ c); [apply pow2_divides; lia|assumption]. }
      replace (c' <? l') with false by lia. lia. }
  rewrite R1. cbn [bind]. exists (n :: rest). split; [reflexivity|].
  split; [constructor; assumption|]. split; [|split; [|split]].
  - constructor; [assumption|]. rewrite Forall_forall in *. intros m Hm.
    destruct (R5 m Hm) as (Hv & _ & _ & Hlo & _). right. destruct Hnn as [-> _].
    split; [congruence|]. rewrite Hsz. cbn [naddr n plain]. lia.
  - simpl. lia.
  - constructor; [exact Hnn|]. rewrite Forall_forall in *. intros m Hm.
    destruct (R5 m Hm) as (Hv & Ht1 & Ht2 & Hlo & Hhi). repeat split; try assumption; lia.
  - intros x. rewrite covered_cons, R6, Cn. unfold in_range.
    destruct (Z_lt_ge_dec (snd x) (first + 2 ^ nb)); intuition lia.
Qed.

Lemma summarize_range_spec v first last :
  0 <= first <= last -> last < 2 ^ width v ->
  exists r, summarize_range v first last = Ok r /\ valid_list r /\
    StronglySorted before r /\ (List.length r <= Z.to_nat (2 * width v + 3))%nat /\
    Forall (fun n => nver n = v /\ ntext n = ""%string /\ ntoken n = ""%string /\ first <= naddr n /\ naddr n + size n <= last + 1) r /\
    forall x, covered r x <-> in_range v first last x.
Proof.
  intros H1 H2. unfold summarize_range. replace (last <? first) with false by lia.
  pose proof (width_pos v).
  apply summarize_loop_spec; try lia.
  intros _. unfold fuel_need.
  destruct (ctz_spec first (width v) ltac:(lia) ltac:(lia)) as (C1 & _).
  assert (Z.log2 (last - first + 1) <= width v).
  { replace (width v) with (Z.log2 (2 ^ width v)) by (apply Z.log2_pow2; lia).
    apply Z.log2_le_mono. lia. }
  destruct (_ <? _); lia.
Qed.

(** ** exclude_address *)
Lemma mk_address_ok v i : 0 <= i < 2 ^ width v -> mk_address v i = Ok i.
Proof. intros H. unfold mk_address, all_ones. replace ((0 <=? i) && (i <=? 2 ^ width v - 1)) with true by lia. reflexivity. Qed.

Lemma StronglySorted_app {A} (R : A -> A -> Prop) l1 l2 :
  StronglySorted R l1 -> StronglySorted R l2 ->
  (forall a b, In a l1 -> In b l2 -> R a b) -> StronglySorted R (l1 ++ l2).
Proof.
  intros H1 H2 H. induction H1 as [|a l1 Hs IH Ha]; simpl; [assumption|].
  constructor; [apply IH; intros; apply H; [right|]; assumption|].
  rewrite Forall_forall in *. intros b Hb. apply in_app_or in Hb.
  destruct Hb as [Hb|Hb]; [auto|apply H; [left; reflexivity|assumption]].
Qed.

Lemma exclude_address_spec base ex : valid base -> valid ex -> subset ex base ->
  exists r, exclude_address base ex = Ok r /\ valid_list r /\ StronglySorted before r /\
    (List.length r <= 518)%nat /\
    Forall (fun n => nver n = nver base /\ naddr base <= naddr n /\ naddr n + size n <= naddr base + size base) r /\
    forall x, covered r x <-> covers base x /\ ~ covers ex x.
Proof.
  intros Hb He Hsub.
  destruct (subset_len ex base He Hb Hsub) as (Ev & A1 & A2 & A3).
  unfold exclude_address. rewrite Ev, ver_eqb_refl. cbn [negb].
  rewrite (proj2 (subnet_of_spec ex base He Hb)) by assumption. cbn [negb].
  pose proof (size_pos base ltac:(apply Hb)) as Pb. pose proof (size_pos ex ltac:(apply He)) as Pe.
  pose proof (valid_end base Hb) as Endb. pose proof (valid_end ex He) as Ende. rewrite Ev in Ende.
  pose proof Hb as (_ & Rb & _). pose proof He as (_ & Re & _). rewrite Ev in Re.
  assert (W : width (nver base) <= 128) by (destruct (nver base); simpl; lia).
  destruct (net_eqb ex base) eqn:Eq.
  { apply net_eqb_spec in Eq; try assumption. exists []. split; [reflexivity|].
    split; [constructor|]. split; [constructor|]. split; [simpl; lia|]. split; [constructor|].
    intros x. rewrite covered_nil. pose proof (prefix_covers _ _ Eq x). tauto. }
  rewrite !broadcast_eq by assumption.
  assert (Cb : forall x, covers base x <-> fst x = nver base /\ naddr base <= snd x < naddr base + size base).
  { intros x. unfold covers. intuition congruence. }
  assert (Ce : forall x, covers ex x <-> fst x = nver base /\ naddr ex <= snd x < naddr ex + size ex).
  { intros x. unfold covers. rewrite Ev. intuition congruence. }
  assert (Hne : ~ (naddr ex = naddr base /\ size ex = size base)).
  { intros [H1 H2]. assert (Hf : net_eqb ex base = true); [|congruence].
    apply net_eqb_spec; try assumption. unfold prefix_of. rewrite Ev, H1.
    rewrite (size_inj ex base); auto. }
  destruct (naddr base =? naddr ex) eqn:E1.
  { rewrite !mk_address_ok by lia. cbn [bind].
    destruct (summarize_range_spec (nver base) (naddr ex + size ex - 1 + 1) (naddr base + size base - 1))
      as (r & R1 & R2 & R3 & R4 & R5 & R6); try lia.
    exists r. split; [assumption|]. split; [assumption|]. split; [assumption|].
    split; [lia|]. split.
    - rewrite Forall_forall in *. intros n Hn. destruct (R5 n Hn) as (? & _ & _ & ? & ?). repeat split; try assumption; lia.
    - intros x. rewrite R6, Cb, Ce. unfold in_range.
      destruct (Z_lt_ge_dec (snd x) (naddr ex + size ex)); intuition lia. }
  destruct (naddr base + size base - 1 =? naddr ex + size ex - 1) eqn:E2.
  { rewrite !mk_address_ok by lia. cbn [bind].
    destruct (summarize_range_spec (nver base) (naddr base) (naddr ex - 1))
      as (r & R1 & R2 & R3 & R4 & R5 & R6); try lia.
    exists r. split; [assumption|]. split; [assumption|]. split; [assumption|].
    split; [lia|]. split.
    - rewrite Forall_forall in *. intros n Hn. destruct (R5 n Hn) as (? & _ & _ & ? & ?). repeat split; try assumption; lia.
    - intros x. rewrite R6, Cb, Ce. unfold in_range.
      destruct (Z_lt_ge_dec (snd x) (naddr ex)); intuition lia. }
  rewrite !mk_address_ok by lia. cbn [bind].
  destruct (summarize_range_spec (nver base) (naddr base) (naddr ex - 1))
      as (r & R1 & R2 & R3 & R4 & R5 & R6); try lia.
  destruct (summarize_range_spec (nver base) (naddr ex + size ex - 1 + 1) (naddr base + size base - 1))
      as (s & S1 & S2 & S3 & S4 & S5 & S6); try lia.
  rewrite R1, S1. cbn [bind]. exists (r ++ s). split; [reflexivity|].
  split; [apply Forall_app; split; assumption|]. rewrite Forall_forall in R5, S5. split.
  { apply StronglySorted_app; try assumption. intros a b Ha Hb'.
    destruct (R5 a Ha) as (? & _ & _ & ? & ?). destruct (S5 b Hb') as (? & _ & _ & ? & ?).
    right. split; [congruence|lia]. }
  split; [rewrite app_length; lia|]. split.
  - apply Forall_app. split; rewrite Forall_forall; intros n Hn.
    + destruct (R5 n Hn) as (? & _ & _ & ? & ?). repeat split; try assumption; lia.
    + destruct (S5 n Hn) as (? & _ & _ & ? & ?). repeat split; try assumption; lia.
  - intros x. rewrite covered_app, R6, S6, Cb, Ce. unfold in_range.
    destruct (Z_lt_ge_dec (snd x) (naddr ex)); destruct (Z_lt_ge_dec (snd x) (naddr ex + size ex)); intuition lia.
Qed.

(** ** RemoveAddressFromList *)
Lemma remove_each_spec ex : valid ex -> forall l, valid_list l ->
  exists r, remove_each l ex = Ok r /\ valid_list r /\
    forall x, covered r x <-> covered l x /\ ~ covers ex x.
Proof.
  intros He. induction l as [|a l IH]; cbn [remove_each]; intros Hl.
  - exists []. split; [reflexivity|]. split; [constructor|]. intros x. rewrite covered_nil. tauto.
  - inversion Hl as [|? ? Va Vl]; subst.
    destruct (IH Vl) as (r & R1 & R2 & R3). rewrite R1.
    assert (Hhere : exists h,
      (if net_eqb ex a || subnet_of a ex then Ok []
       else if ver_eqb (nver ex) (nver a) && subnet_of ex a then exclude_address a ex else Ok [a]) = Ok h
      /\ valid_list h /\ forall x, covered h x <-> covers a x /\ ~ covers ex x).
    { destruct (net_eqb ex a || subnet_of a ex) eqn:E1.
      - exists []. split; [reflexivity|]. split; [constructor|]. intros x. rewrite covered_nil.
        apply orb_true_iff in E1. destruct E1 as [E1|E1].
        + apply net_eqb_spec in E1; try assumption. pose proof (prefix_covers _ _ E1 x). tauto.
        + apply subnet_of_spec in E1; try assumption. specialize (E1 x). tauto.
      - apply orb_false_iff in E1. destruct E1 as [E1 E2].
        destruct (ver_eqb (nver ex) (nver a) && subnet_of ex a) eqn:E3.
        + apply andb_true_iff in E3. destruct E3 as [_ E3]. apply subnet_of_spec in E3; try assumption.
          destruct (exclude_address_spec a ex Va He E3) as (h & H1 & H2 & _ & _ & _ & H3).
          exists h. auto.
        + exists [a]. split; [reflexivity|]. split; [constructor; [assumption|constructor]|].
          intros x. rewrite covered_cons, covered_nil. split; [|tauto]. intros [Hx|[]].
          split; [assumption|]. intros Hx2.
          destruct (laminar a ex x Va He Hx Hx2) as [Hs|Hs].
          * apply subnet_of_spec in Hs; try assumption. congruence.
          * destruct (subset_len ex a He Va Hs) as (Ev & _).
            apply subnet_of_spec in Hs; try assumption.
            rewrite Ev, ver_eqb_refl, Hs in E3. discriminate. }
    destruct Hhere as (h & H1 & H2 & H3). rewrite H1. cbn [bind].
    exists (h ++ r). split; [reflexivity|]. split; [apply Forall_app; split; assumption|].
    intros x. rewrite covered_app, covered_cons, H3, R3. tauto.
Qed.

Lemma remove_address_spec l ex : valid_list l -> valid ex ->
  exists r, remove_address_from_list l ex = Ok r /\ valid_list r /\ StronglySorted key_le r /\
    forall x, covered r x <-> covered l x /\ ~ covers ex x.
Proof.
  intros Hl He. destruct (remove_each_spec ex He l Hl) as (r & R1 & R2 & R3).
  unfold remove_address_from_list. rewrite R1. cbn [bind].
  exists (sort_addr_list r). split; [reflexivity|].
  split; [apply sort_valid; assumption|]. split; [apply sort_sorted; assumption|].
  intros x. unfold sort_addr_list. rewrite covered_sort. apply R3.
Qed.

(** Sorting an already strictly ordered list changes nothing. *)
Lemma insert_head {A} (leb : A -> A -> bool) a l :
  (forall b, In b l -> leb a b = true) -> insert leb a l = a :: l.
Proof. destruct l as [|b l]; simpl; intros H; [reflexivity|]. rewrite H; auto. Qed.

Lemma sort_sorted_id l : valid_list l -> StronglySorted key_le l -> py_sorted key_leb l = l.
Proof.
  intros Hl Hs. induction Hs as [|a l Hs IH Ha]; simpl; [reflexivity|].
  inversion Hl as [|? ? Va Vl]; subst. rewrite IH by assumption.
  apply insert_head. unfold valid_list in Vl. rewrite Forall_forall in *.
  intros b Hb. apply key_leb_spec; auto.
Qed.

Lemma before_sorted_key l : valid_list l -> StronglySorted before l -> StronglySorted key_le l.
Proof.
  intros Hl Hs. induction Hs as [|a l Hs IH Ha]; [constructor|].
  inversion Hl as [|? ? Va Vl]; subst. constructor; [auto|].
  rewrite Forall_forall in *. intros b Hb. apply before_key_le; auto.
Qed.

Lemma remove_one_spec s e : valid s -> valid e -> overlaps s e = true ->
  exists r, remove_address_from_list [s] e = Ok r /\ valid_list r /\ StronglySorted before r /\
    (List.length r <= 518)%nat /\
    Forall (fun n => nver n = nver s /\ naddr s <= naddr n /\ naddr n + size n <= naddr s + size s) r /\
    forall x, covered r x <-> covers s x /\ ~ covers e x.
Proof.
  intros Hs He Ho. apply overlaps_spec in Ho; try assumption. destruct Ho as [x0 [X1 X2]].
  unfold remove_address_from_list. cbn [remove_each].
  destruct (net_eqb e s || subnet_of s e) eqn:E1.
  { cbn [bind app]. exists []. split; [reflexivity|]. split; [constructor|]. split; [constructor|].
    split; [simpl; lia|]. split; [constructor|]. intros x. rewrite covered_nil.
    apply orb_true_iff in E1. destruct E1 as [E1|E1].
    + apply net_eqb_spec in E1; try assumption. pose proof (prefix_covers _ _ E1 x). tauto.
    + apply subnet_of_spec in E1; try assumption. specialize (E1 x). tauto. }
  apply orb_false_iff in E1. destruct E1 as [E1 E2].
  assert (Hsub : subset e s).
  { destruct (laminar s e x0 Hs He X1 X2) as [H|H]; [|assumption].
    apply subnet_of_spec in H; try assumption. congruence. }
  destruct (subset_len e s He Hs Hsub) as (Ev & _).
  rewrite Ev, ver_eqb_refl. rewrite (proj2 (subnet_of_spec e s He Hs)) by assumption. cbn [andb].
  destruct (exclude_address_spec s e Hs He Hsub) as (r & R1 & R2 & R3 & R4 & R5 & R6).
  rewrite R1. cbn [bind]. rewrite app_nil_r.
  exists r. unfold sort_addr_list.
  rewrite sort_sorted_id; [|assumption|apply before_sorted_key; assumption].
  auto 10.
Qed.

(** ** AddressListExclude *)
Definition weight (e : net) (l : list net) : nat :=
  fold_right (fun s n => (if overlaps s e then 519 else 1) + n)%nat 0%nat l.

Lemma weight_app e l1 l2 : weight e (l1 ++ l2) = (weight e l1 + weight e l2)%nat.
Proof. unfold weight. induction l1 as [|a l1 IH]; simpl; [reflexivity|]. rewrite IH. lia. Qed.
Lemma weight_le e l : (weight e l <= 519 * List.length l)%nat.
Proof. unfold weight. induction l as [|a l IH]; simpl; [lia|]. destruct (overlaps a e); lia. Qed.
Lemma weight_none e l : (forall s, In s l -> overlaps s e = false) -> weight e l = List.length l.
Proof.
  unfold weight. induction l as [|a l IH]; simpl; intros H; [reflexivity|].
  rewrite H by (left; reflexivity). rewrite IH; [lia|]. intros; apply H; right; assumption.
Qed.

Lemma not_overlap_before s e : valid s -> valid e -> overlaps s e = false -> key_le s e -> before s e.
Proof.
  intros Hs He Ho Hk. apply key_le_before; try assumption.
  destruct (supernet_of s e) eqn:E; [exfalso|reflexivity].
  unfold supernet_of in E. apply subnet_of_spec in E; try assumption.
  assert (overlaps s e = true); [|congruence]. apply overlaps_spec; try assumption.
  pose proof (size_pos e ltac:(apply He)).
  exists (nver e, naddr e). assert (covers e (nver e, naddr e)) by (split; simpl; [reflexivity|lia]).
  auto.
Qed.

Lemma sub_before a b c : nver a = nver b -> naddr a + size a <= naddr b + size b -> before b c -> before a c.
Proof. intros Hv H [H1|[E H1]]; [left; rewrite Hv; assumption|right]. split; [congruence|lia]. Qed.

Lemma exclude_one_spec e : valid e -> forall fuel sup ret,
  valid_list sup -> StronglySorted before sup -> (weight e sup <= fuel)%nat ->
  exists new sup', exclude_one fuel sup e ret = Ok (new ++ ret, sup') /\
    valid_list new /\ valid_list sup' /\ StronglySorted before sup' /\
    Forall (fun n => before n e) new /\
    (forall x, covered sup' x -> ~ covers e x) /\
    forall x, covered new x \/ covered sup' x <-> covered sup x /\ ~ covers e x.
Proof.
  intros He. induction fuel as [|fuel IH]; intros sup ret Hv Hs Hw.
  - destruct sup as [|s sup]; [|simpl in Hw; destruct (overlaps s e); lia].
    exists [], []. cbn [exclude_one app]. split; [reflexivity|].
    split; [constructor|]. split; [constructor|]. split; [constructor|]. split; [constructor|].
    split; intros x; rewrite ?covered_nil; tauto.
  - destruct sup as [|s sup].
    { exists [], []. cbn [exclude_one app]. split; [reflexivity|].
      split; [constructor|]. split; [constructor|]. split; [constructor|]. split; [constructor|].
      split; intros x; rewrite ?covered_nil; tauto. }
    cbn [exclude_one]. inversion Hv as [|? ? Vs Vsup]; subst. inversion Hs as [|? ? Ssup Fs]; subst.
    destruct (overlaps s e) eqn:Eo.
    + destruct (remove_one_spec s e Vs He Eo) as (p & P1 & P2 & P3 & P4 & P5 & P6).
      rewrite P1. cbn [bind].
      assert (Wp : weight e p = List.length p).
      { apply weight_none. intros q Hq. destruct (overlaps q e) eqn:Eq; [exfalso|reflexivity].
        unfold valid_list in P2. rewrite Forall_forall in P2.
        apply overlaps_spec in Eq; auto. destruct Eq as [x [Q1 Q2]].
        assert (covered p x) by (exists q; auto). apply P6 in H. tauto. }
      destruct (IH (p ++ sup) ret) as (new & sup' & N1 & N2 & N3 & N4 & N5 & N6 & N7).
      * apply Forall_app; split; assumption.
      * apply StronglySorted_app; try assumption. intros a b Ha Hb.
        rewrite Forall_forall in *. destruct (P5 a Ha) as (Q1 & Q2 & Q3).
        eapply sub_before; eauto.
      * rewrite weight_app, Wp. simpl in Hw. rewrite Eo in Hw. fold (weight e sup) in Hw. lia.
      * exists new, sup'. repeat (split; [assumption|]).
        intros x. rewrite N7, covered_app, P6, covered_cons. tauto.
    + assert (Hse : forall x, covers s x -> ~ covers e x).
      { intros x X1 X2. assert (overlaps s e = true); [|congruence].
        apply overlaps_spec; eauto. }
      destruct (key_ltb s e) eqn:Ek.
      * destruct (IH sup (s :: ret)) as (new & sup' & N1 & N2 & N3 & N4 & N5 & N6 & N7); try assumption.
        { simpl in Hw. rewrite Eo in Hw. fold (weight e sup) in Hw. lia. }
        exists (new ++ [s]), sup'. rewrite N1, <- app_assoc. simpl. split; [reflexivity|].
        split; [apply Forall_app; split; [assumption|constructor; [assumption|constructor]]|].
        split; [assumption|]. split; [assumption|]. split.
        { apply Forall_app; split; [assumption|]. constructor; [|constructor].
          apply not_overlap_before; try assumption.
          apply key_ltb_spec in Ek; try assumption.
          destruct (key_le_total s e); [assumption|contradiction]. }
        split; [assumption|].
        intros x. rewrite covered_app, !covered_cons, covered_nil. specialize (N7 x).
        specialize (Hse x). tauto.
      * assert (Bes : before e s).
        { apply not_overlap_before; try assumption.
          - destruct (overlaps e s) eqn:E; [|reflexivity].
            apply overlaps_spec in E; try assumption. destruct E as [x [X1 X2]].
            exfalso. eapply Hse; eauto.
          - destruct (key_le_total e s) as [H|H]; [assumption|].
            destruct (key_ltb_spec s e Vs He) as [_ Hk].
            destruct (key_leb e s) eqn:El.
            + apply key_leb_spec in El; assumption.
            + exfalso. rewrite Hk in Ek; [discriminate|]. intros Hc.
              apply key_leb_spec in Hc; try assumption. congruence. }
        assert (Hall : forall x, covered (s :: sup) x -> ~ covers e x).
        { intros x [n [[<-|Hn] Hx]] Hex; [eapply Hse; eauto|].
          rewrite Forall_forall in Fs.
          assert (before e n) by (eapply before_trans; eauto).
          eapply before_disjoint; eauto. }
        exists [], (s :: sup). cbn [app]. split; [reflexivity|]. split; [constructor|].
        split; [assumption|]. split; [assumption|]. split; [constructor|]. split; [assumption|].
        intros x. rewrite covered_nil. specialize (Hall x). tauto.
Qed.

Lemma exclude_loop_spec : forall ex sup ret,
  valid_list ex -> StronglySorted key_le ex ->
  valid_list sup -> StronglySorted before sup -> valid_list ret ->
  exists ret' sup', exclude_loop sup ex ret = Ok (ret', sup') /\
    valid_list ret' /\ valid_list sup' /\
    forall x, covered ret' x \/ covered sup' x <-> covered ret x \/ (covered sup x /\ ~ covered ex x).
Proof.
  induction ex as [|e ex IH]; intros sup ret Vex Sex Vsup Ssup Vret; cbn [exclude_loop].
  - exists ret, sup. split; [reflexivity|]. split; [assumption|]. split; [assumption|].
    intros x. rewrite covered_nil. tauto.
  - inversion Vex as [|? ? Ve Vex']; subst. inversion Sex as [|? ? Sex' Fe]; subst.
    destruct (exclude_one_spec e Ve (520 * List.length sup + 1) sup ret Vsup Ssup)
      as (new & sup1 & N1 & N2 & N3 & N4 & N5 & N6 & N7).
    { pose proof (weight_le e sup). lia. }
    rewrite N1. cbn [bind].
    destruct (IH sup1 (new ++ ret)) as (ret' & sup' & R1 & R2 & R3 & R4); try assumption.
    { apply Forall_app; split; assumption. }
    exists ret', sup'. split; [assumption|]. split; [assumption|]. split; [assumption|].
    intros x. rewrite R4, covered_app, covered_cons.
    assert (Hnew : covered new x -> ~ covered ex x).
    { intros [n [Hn Hx]] [e' [He' Hx']].
      unfold valid_list in *. rewrite Forall_forall in *.
      assert (B : before n e). { apply N5; assumption. }
      assert (B' : before n e').
      { specialize (Fe e' He'). destruct B as [B|[B1 B2]], Fe as [F|[F1 F2]].
        - left; lia.
        - left. rewrite <- F1. lia.
        - left. rewrite B1. lia.
        - right. split; [congruence|lia]. }
      eapply before_disjoint; eauto. }
    specialize (N7 x). tauto.
Qed.

Lemma address_list_exclude_spec sup ex : valid_list sup -> valid_list ex ->
  exists r, address_list_exclude sup ex true = Ok r /\ valid_list r /\ canonical r /\
    forall x, covered r x <-> covered sup x /\ ~ covered ex x.
Proof.
  intros Vs Ve. unfold address_list_exclude.
  destruct (collapse_total_canonical sup Vs) as (s & S1 & S2 & S3 & S4).
  destruct (collapse_total_canonical ex Ve) as (e & E1 & E2 & E3 & E4).
  rewrite S1, E1. cbn [bind].
  destruct (exclude_loop_spec e s [] E2 (before_sorted_key e E2 E3) S2 S3 (Forall_nil _))
    as (ret & rest & R1 & R2 & R3 & R4).
  rewrite R1. cbn [bind].
  destruct (collapse_total_canonical (rev ret ++ rev rest)) as (r & Q1 & Q2 & Q3).
  { apply Forall_app; split; apply Forall_rev; assumption. }
  exists r. split; [assumption|]. split; [assumption|]. split; [assumption|].
  assert (V : valid_list (rev ret ++ rev rest)) by (apply Forall_app; split; apply Forall_rev; assumption).
  intros x. rewrite (proj2 (collapse_coverage _ _ _ V Q1) x).
  rewrite covered_app, !covered_rev, R4, covered_nil.
  rewrite (proj2 (collapse_coverage _ _ _ Vs S1) x), (proj2 (collapse_coverage _ _ _ Ve E1) x). tauto.
Qed.

(** Without collapsing: exact for pairwise disjoint supersets of one family. *)
Lemma covered_dedup l x : valid_list l -> covered (dedup l) x <-> covered l x.
Proof.
  intros Hl. induction l as [|a l IH]; simpl; [reflexivity|].
  inversion Hl as [|? ? Va Vl]; subst. rewrite !covered_cons. rewrite <- IH by assumption.
  split; [intros [H|[n [Hn Hx]]]; auto|].
  - apply filter_In in Hn. right. exists n; tauto.
  - intros [H|[n [Hn Hx]]]; [auto|]. destruct (net_eqb n a) eqn:E.
    + left. apply net_eqb_spec in E; [|clear IH|assumption].
      * apply (prefix_covers _ _ E). assumption.
      * unfold valid_list in Vl. rewrite Forall_forall in Vl. apply Vl.
        clear - Hn. induction l as [|b l IH]; simpl in *; [assumption|].
        destruct Hn as [<-|Hn]; [auto|]. apply filter_In in Hn. tauto.
    + right. exists n. split; [|assumption]. apply filter_In. rewrite E. auto.
Qed.

Lemma dedup_incl l n : In n (dedup l) -> In n l.
Proof.
  induction l as [|a l IH]; simpl; [tauto|]. intros [H|H]; [auto|].
  apply filter_In in H. right. tauto.
Qed.

Lemma disjoint_sym a b : disjoint a b -> disjoint b a.
Proof. intros H x Ha Hb. eapply H; eauto. Qed.

Lemma pairwise_disjoint_perm l l' : Permutation l l' -> pairwise_disjoint l -> pairwise_disjoint l'.
Proof.
  induction 1 as [|a l l' HP IH|a b l|l1 l2 l3 H1 IH1 H2 IH2]; intros H.
  - constructor.
  - inversion H; subst. constructor; [|auto]. rewrite Forall_forall in *.
    intros n Hn. apply H2. eapply Permutation_in; [apply Permutation_sym; eassumption|assumption].
  - inversion H as [|? ? Hb H']; subst. inversion H' as [|? ? Ha H'']; subst.
    inversion Hb as [|? ? Hba Hbl]; subst. constructor.
    + constructor; [apply disjoint_sym; assumption|assumption].
    + constructor; assumption.
  - auto.
Qed.

Lemma key_sorted_disjoint_before l : valid_list l -> StronglySorted key_le l ->
  pairwise_disjoint l -> StronglySorted before l.
Proof.
  intros Hv Hs Hd. induction Hs as [|a l Hs IH Ha]; [constructor|].
  inversion Hv as [|? ? Va Vl]; subst. inversion Hd as [|? ? Da Dl]; subst.
  constructor; [auto|]. unfold valid_list in *. rewrite Forall_forall in *. intros b Hb.
  apply not_overlap_before; auto. destruct (overlaps a b) eqn:E; [exfalso|reflexivity].
  apply overlaps_spec in E; auto. destruct E as [x [X1 X2]]. exact (Da b Hb x X1 X2).
Qed.

Lemma exclude_nocollapse_spec v sup ex :
  valid_list sup -> valid_list ex ->
  Forall (fun n => nver n = v) sup -> mixed_versions ex = false ->
  pairwise_disjoint sup ->
  exists r, address_list_exclude sup ex false = Ok r /\ valid_list r /\
    forall x, covered r x <-> covered sup x /\ ~ covered ex x.
Proof.
  intros Vs Ve Hsv Hev Hd. unfold address_list_exclude.
  assert (Hmix : forall l, Forall (fun n => nver n = v) l -> mixed_versions l = false).
  { intros l Hl. unfold mixed_versions. rewrite Forall_forall in Hl.
    destruct (existsb (fun n => ver_eqb (nver n) V4) l) eqn:E4; [|reflexivity].
    destruct (existsb (fun n => ver_eqb (nver n) V6) l) eqn:E6; [|reflexivity].
    apply existsb_exists in E4, E6. destruct E4 as (a & Ha & E4), E6 as (b & Hb & E6).
    apply ver_eqb_eq in E4, E6. rewrite (Hl a Ha) in E4. rewrite (Hl b Hb) in E6. congruence. }
  rewrite (Hmix sup Hsv), Hev. cbn [bind]. unfold py_sorted_rev. rewrite !rev_involutive.
  assert (Vrs : valid_list (rev sup)) by (apply Forall_rev; assumption).
  assert (Vre : valid_list (rev ex)) by (apply Forall_rev; assumption).
  destruct (exclude_loop_spec (py_sorted key_leb (rev ex)) (py_sorted key_leb (rev sup)) [])
    as (ret & rest & R1 & R2 & R3 & R4).
  - apply sort_valid; assumption.
  - apply sort_sorted; assumption.
  - apply sort_valid; assumption.
  - apply key_sorted_disjoint_before.
    + apply sort_valid; assumption.
    + apply sort_sorted; assumption.
    + apply pairwise_disjoint_perm with sup; [|assumption].
      apply perm_trans with (rev sup); [apply Permutation_rev|apply Permutation_sym, py_sorted_perm].
  - constructor.
  - rewrite R1. cbn [bind].
    assert (V : valid_list (rev ret ++ rev rest)) by (apply Forall_app; split; apply Forall_rev; assumption).
    assert (C : forall x, covered (rev ret ++ rev rest) x <-> covered sup x /\ ~ covered ex x).
    { intros x. rewrite covered_app, !covered_rev, R4, covered_nil, !covered_sort, !covered_rev. tauto. }
    unfold sorted_nokey. rewrite Hmix.
    + eexists. split; [reflexivity|]. split.
      { apply sort_valid. unfold valid_list in *. rewrite Forall_forall in *. intros n Hn. apply V, dedup_incl, Hn. }
      intros x. rewrite covered_sort, covered_dedup by assumption. apply C.
    + rewrite Forall_forall. intros n Hn. apply dedup_incl in Hn.
      unfold valid_list in V. rewrite Forall_forall in V. specialize (V n Hn).
      pose proof (size_pos n ltac:(apply V)).
      destruct (C (nver n, naddr n)) as [C1 _].
      destruct C1 as [[m [Hm [Em _]]] _]; [exists n; split; [assumption|split; simpl; [reflexivity|lia]]|].
      rewrite Forall_forall in Hsv. rewrite <- (Hsv m Hm). symmetry. exact Em.
Qed.

(** ** Order *)
Lemma sort_addr_list_spec l : valid_list l ->
  Permutation (sort_addr_list l) l /\ StronglySorted key_le (sort_addr_list l).
Proof. intros H. split; [apply py_sorted_perm|apply sort_sorted; assumption]. Qed.

(** ** Forms used by PropsIP.v *)
Lemma exclude_nocollapse_partial v sup ex :
  valid_list sup -> valid_list ex ->
  Forall (fun n => nver n = v) sup ->
  (forall n m, In n ex -> In m ex -> nver n = nver m) ->
  pairwise_disjoint sup ->
  exists r, address_list_exclude sup ex false = Ok r /\ valid_list r /\
    forall x, covered r x <-> covered sup x /\ ~ covered ex x.
Proof.
  intros Vs Ve Hs He Hd. apply exclude_nocollapse_spec with v; try assumption.
  unfold mixed_versions. destruct (existsb _ ex) eqn:E4; [|reflexivity].
  destruct (existsb (fun n => ver_eqb (nver n) V6) ex) eqn:E6; [|reflexivity].
  apply existsb_exists in E4, E6. destruct E4 as (a & Ha & E4), E6 as (b & Hb & E6).
  apply ver_eqb_eq in E4, E6. specialize (He a b Ha Hb). congruence.
Qed.

Lemma exclude_address_partition base ex : valid base -> valid ex ->
  (forall x, covers ex x -> covers base x) ->
  exists r, exclude_address base ex = Ok r /\ valid_list r /\ StronglySorted before r /\
    Forall (fun n => nver n = nver base) r /\
    forall x, covered r x <-> covers base x /\ ~ covers ex x.
Proof.
  intros Vb Ve H. destruct (exclude_address_spec base ex Vb Ve H) as (r & R1 & R2 & R3 & _ & R5 & R6).
  exists r. split; [assumption|]. split; [assumption|]. split; [assumption|]. split; [|assumption].
  eapply Forall_impl; [|exact R5]. simpl. tauto.
Qed.

Lemma exclude_address_outside base ex : valid base -> valid ex ->
  (exists x, covers ex x /\ ~ covers base x) -> exists e, exclude_address base ex = Raise (Exn e).
Proof.
  intros Vb Ve [x [H1 H2]]. unfold exclude_address.
  destruct (negb (ver_eqb (nver base) (nver ex))); [eauto|].
  destruct (subnet_of ex base) eqn:E; [|cbn [negb]; eauto].
  exfalso. apply H2. eapply subnet_of_spec; eauto.
Qed.
