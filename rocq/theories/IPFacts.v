(** Arithmetic facts about the IP model: masks, containment, supernets. *)
From Coq Require Import Lia ZifyBool ZifyNat Znumtheory.
From Verif Require Import SpecIP.
Local Open Scope Z_scope.
Ltac Zify.zify_post_hook ::= Z.div_mod_to_equations.

Lemma width_pos v : 0 < width v. Proof. destruct v; simpl; lia. Qed.
Lemma ver_eqb_eq a b : ver_eqb a b = true <-> a = b.
Proof. destruct a, b; simpl; intuition congruence. Qed.
Lemma ver_eqb_refl a : ver_eqb a a = true. Proof. destruct a; reflexivity. Qed.
Lemma ver_eqb_neq a b : ver_eqb a b = false <-> a <> b.
Proof. destruct a, b; simpl; intuition congruence. Qed.
Lemma ver_num_inj a b : ver_num a = ver_num b -> a = b.
Proof. destruct a, b; simpl; lia || reflexivity. Qed.

Lemma pow2_pos k : 0 <= k -> 0 < 2 ^ k. Proof. intros; apply Z.pow_pos_nonneg; lia. Qed.

Lemma size_pos n : nlen n <= width (nver n) -> 0 < size n.
Proof. intros; apply pow2_pos; lia. Qed.

Lemma ones_shiftr w k : 0 <= k <= w -> Z.shiftr (2 ^ w - 1) k = 2 ^ (w - k) - 1.
Proof.
  intros H. rewrite Z.shiftr_div_pow2 by lia.
  assert (E : 2 ^ w = 2 ^ (w - k) * 2 ^ k) by (rewrite <- Z.pow_add_r by lia; f_equal; lia).
  assert (P1 := pow2_pos k ltac:(lia)). assert (P2 := pow2_pos (w - k) ltac:(lia)).
  symmetry. apply Z.div_unique with (r := 2 ^ k - 1); lia.
Qed.

Lemma testbit_ones_pow w i : 0 <= w -> 0 <= i -> Z.testbit (2 ^ w - 1) i = (i <? w).
Proof.
  intros Hw Hi. replace (2 ^ w - 1) with (Z.ones w) by (rewrite Z.ones_equiv; lia).
  rewrite Z.testbit_ones by lia. destruct (i <? w) eqn:E; lia.
Qed.

Lemma lxor_ones w k : 0 <= k <= w -> Z.lxor (2 ^ w - 1) (2 ^ k - 1) = 2 ^ w - 2 ^ k.
Proof.
  intros H.
  transitivity ((2 ^ w - 1) - (2 ^ k - 1)); [|lia].
  rewrite (Z.sub_nocarry_ldiff (2 ^ w - 1) (2 ^ k - 1)).
  - apply Z.bits_inj'. intros i Hi.
    rewrite Z.lxor_spec, Z.ldiff_spec, !testbit_ones_pow by lia.
    destruct (i <? w) eqn:A, (i <? k) eqn:B; simpl; try reflexivity; lia.
  - apply Z.bits_inj'. intros i Hi.
    rewrite Z.ldiff_spec, !testbit_ones_pow, Z.bits_0 by lia.
    destruct (i <? w) eqn:A, (i <? k) eqn:B; simpl; try reflexivity; lia.
Qed.

Lemma netmask_eq n : 0 <= nlen n <= width (nver n) ->
  netmask n = 2 ^ width (nver n) - size n.
Proof.
  intros H. unfold netmask, all_ones, size.
  rewrite ones_shiftr by lia. apply lxor_ones. lia.
Qed.

Lemma hostmask_eq n : 0 <= nlen n <= width (nver n) -> hostmask n = size n - 1.
Proof.
  intros H. unfold hostmask. rewrite netmask_eq by lia. unfold all_ones, size.
  set (w := width (nver n)) in *.
  rewrite <- (lxor_ones w (w - nlen n)) by lia.
  rewrite Z.lxor_comm, <- Z.lxor_assoc, Z.lxor_nilpotent, Z.lxor_0_l. reflexivity.
Qed.

Lemma lor_low a k : 0 <= k -> (2 ^ k | a) -> Z.lor a (2 ^ k - 1) = a + (2 ^ k - 1).
Proof.
  intros Hk [q Hq].
  rewrite Z.add_nocarry_lxor, Z.lxor_lor; try reflexivity.
  all: apply Z.bits_inj'; intros i Hi;
    rewrite Z.land_spec, testbit_ones_pow, Z.bits_0 by lia;
    destruct (i <? k) eqn:E; [|apply andb_false_r];
    rewrite andb_true_r; subst a; apply Z.mul_pow2_bits_low; lia.
Qed.

Lemma broadcast_eq n : valid n -> broadcast n = naddr n + size n - 1.
Proof.
  intros (Hl & Ha & Hd). unfold broadcast. rewrite hostmask_eq by lia.
  unfold size. rewrite lor_low; try lia. exact Hd.
Qed.

Lemma size_divides n : valid n -> (size n | 2 ^ width (nver n)).
Proof.
  intros (Hl & _). exists (2 ^ nlen n). unfold size.
  rewrite <- Z.pow_add_r by lia. f_equal; lia.
Qed.

Lemma valid_end n : valid n -> naddr n + size n <= 2 ^ width (nver n).
Proof.
  intros H. pose proof (size_divides n H) as [q Hq].
  destruct H as (Hl & Ha & [p Hp]). pose proof (size_pos n ltac:(lia)).
  assert (p < q) by nia. nia.
Qed.

(** ** Coverage *)

Lemma covers_range n x : valid n -> covers n x -> 0 <= snd x < 2 ^ width (fst x).
Proof.
  intros H [Hv Hx]. pose proof (valid_end n H). destruct H as (_ & Ha & _).
  rewrite <- Hv. lia.
Qed.

Lemma has_address_covers n v a : valid n -> has_address n v a = true <-> covers n (v, a).
Proof.
  intros H. unfold has_address, covers. rewrite broadcast_eq by assumption. simpl.
  rewrite !andb_true_iff, ver_eqb_eq, !Z.leb_le. intuition lia.
Qed.

Definition subset (a b : net) : Prop := forall x, covers a x -> covers b x.

Lemma subnet_of_spec a b : valid a -> valid b -> subnet_of a b = true <-> subset a b.
Proof.
  intros Ha Hb. unfold subnet_of. rewrite !broadcast_eq by assumption.
  pose proof (size_pos a ltac:(apply Ha)). pose proof (size_pos b ltac:(apply Hb)).
  destruct (ver_eqb (nver a) (nver b)) eqn:E.
  - apply ver_eqb_eq in E. rewrite andb_true_iff. split.
    + intros H1 [v x] [Hv Hx]. split; simpl in *; [congruence|lia].
    + intros Hs.
      destruct (Hs (nver a, naddr a)) as [_ H1]; [split; simpl; [reflexivity|lia]|].
      destruct (Hs (nver a, naddr a + size a - 1)) as [_ H2]; [split; simpl; [reflexivity|lia]|].
      simpl in *. lia.
  - apply ver_eqb_neq in E. split; [discriminate|]. intros Hs. exfalso.
    destruct (Hs (nver a, naddr a)) as [H1 _]; [split; simpl; [reflexivity|lia]|].
    simpl in H1. congruence.
Qed.

Lemma pow2_divides i j : 0 <= i <= j -> (2 ^ i | 2 ^ j).
Proof.
  intros H. exists (2 ^ (j - i)). rewrite <- Z.pow_add_r by lia. f_equal; lia.
Qed.

(** Aligned blocks of size 2^i and 2^j, i <= j, are nested or disjoint. *)
Lemma aligned_nested i j a b x :
  0 <= i <= j -> (2 ^ i | a) -> (2 ^ j | b) ->
  a <= x < a + 2 ^ i -> b <= x < b + 2 ^ j ->
  b <= a /\ a + 2 ^ i <= b + 2 ^ j.
Proof.
  intros Hij [p Hp] [q Hq] H1 H2.
  destruct (pow2_divides i j Hij) as [k Hk].
  pose proof (pow2_pos i ltac:(lia)). pose proof (pow2_pos j ltac:(lia)).
  assert (Hb : b = q * k * 2 ^ i) by (rewrite Hq, Hk; ring).
  assert (Hk' : 2 ^ j = k * 2 ^ i) by assumption.
  assert (0 < k) by nia.
  set (s := 2 ^ i) in *.
  assert (p < q * k + k) by nia.
  assert (q * k <= p) by nia. nia.
Qed.

Lemma nested a b x : valid a -> valid b -> nlen b <= nlen a ->
  covers a x -> covers b x -> subset a b.
Proof.
  intros Ha Hb Hl [Hv1 Hx1] [Hv2 Hx2].
  destruct Ha as (Ha1 & Ha2 & Ha3), Hb as (Hb1 & Hb2 & Hb3).
  assert (E : nver a = nver b) by congruence.
  unfold size in *. rewrite E in *.
  pose proof (aligned_nested (width (nver b) - nlen a) (width (nver b) - nlen b)
     (naddr a) (naddr b) (snd x) ltac:(lia) Ha3 Hb3 Hx1 Hx2) as [H1 H2].
  intros y [Hy1 Hy2]. unfold covers, size. unfold size in Hy2.
  rewrite E in *. split; [congruence|lia].
Qed.

(** Two networks that share an address are nested. *)
Lemma laminar a b x : valid a -> valid b -> covers a x -> covers b x ->
  subset a b \/ subset b a.
Proof.
  intros Ha Hb H1 H2. destruct (Z_le_gt_dec (nlen b) (nlen a)).
  - left. eapply nested; eauto.
  - right. eapply nested; eauto. lia.
Qed.

Lemma subset_len a b : valid a -> valid b -> subset a b ->
  nver a = nver b /\ naddr b <= naddr a /\ naddr a + size a <= naddr b + size b /\ nlen b <= nlen a.
Proof.
  intros Ha Hb Hs.
  pose proof (size_pos a ltac:(apply Ha)). pose proof (size_pos b ltac:(apply Hb)).
  destruct (Hs (nver a, naddr a)) as [E H1]; [split; simpl; [reflexivity|lia]|].
  destruct (Hs (nver a, naddr a + size a - 1)) as [_ H2]; [split; simpl; [reflexivity|lia]|].
  simpl in *. split; [congruence|]. split; [lia|]. split; [lia|].
  destruct (Z_le_gt_dec (nlen b) (nlen a)) as [|Hgt]; [assumption|exfalso].
  assert (size a <= size b) by lia.
  unfold size in *. rewrite E in *.
  destruct Ha as (Ha1 & _), Hb as (Hb1 & _). rewrite E in *.
  assert (2 ^ (width (nver a) - nlen b) < 2 ^ (width (nver a) - nlen a))
    by (apply Z.pow_lt_mono_r; lia). lia.
Qed.

Lemma size_inj a b : valid a -> valid b -> nver a = nver b -> size a = size b -> nlen a = nlen b.
Proof.
  intros (Ha & _) (Hb & _) Hv Hs. unfold size in Hs. rewrite Hv in *.
  apply Z.pow_inj_r in Hs; lia.
Qed.

Lemma netmask_le a b : valid a -> valid b -> nver a = nver b ->
  netmask a <= netmask b <-> nlen a <= nlen b.
Proof.
  intros Ha Hb Hv. rewrite !netmask_eq by (apply Ha || apply Hb).
  unfold size. destruct Ha as (Ha & _), Hb as (Hb & _). rewrite Hv in *.
  set (w := width (nver b)) in *. split; intros H.
  - destruct (Z_le_gt_dec (nlen a) (nlen b)); [assumption|exfalso].
    assert (2 ^ (w - nlen a) < 2 ^ (w - nlen b)) by (apply Z.pow_lt_mono_r; lia). lia.
  - assert (2 ^ (w - nlen b) <= 2 ^ (w - nlen a)) by (apply Z.pow_le_mono_r; lia). lia.
Qed.

Lemma netmask_inj a b : valid a -> valid b -> nver a = nver b ->
  netmask a = netmask b <-> nlen a = nlen b.
Proof.
  intros Ha Hb Hv. pose proof (netmask_le a b Ha Hb Hv).
  pose proof (netmask_le b a Hb Ha (eq_sym Hv)). lia.
Qed.

Lemma net_eqb_spec a b : valid a -> valid b ->
  net_eqb a b = true <-> prefix_of a = prefix_of b.
Proof.
  intros Ha Hb. unfold net_eqb, prefix_of. rewrite !andb_true_iff, ver_eqb_eq, !Z.eqb_eq.
  split.
  - intros [[Hv H1] H2]. apply netmask_inj in H2; try assumption. congruence.
  - intros H. injection H; intros Hl Hn Hv. repeat split; try assumption.
    apply netmask_inj; assumption.
Qed.

Lemma prefix_covers a b : prefix_of a = prefix_of b -> forall x, covers a x <-> covers b x.
Proof.
  unfold prefix_of, covers, size. intros H x. injection H; intros -> -> ->. reflexivity.
Qed.

Lemma prefix_valid a b : prefix_of a = prefix_of b -> valid a -> valid b.
Proof.
  unfold prefix_of, valid, size. intros H. injection H; intros -> -> ->. auto.
Qed.

Lemma subset_antisym a b : valid a -> valid b -> subset a b -> subset b a ->
  prefix_of a = prefix_of b.
Proof.
  intros Ha Hb H1 H2.
  destruct (subset_len a b Ha Hb H1) as (E & A1 & A2 & A3).
  destruct (subset_len b a Hb Ha H2) as (_ & B1 & B2 & B3).
  unfold prefix_of. f_equal; [f_equal|]; try assumption; lia.
Qed.

Lemma overlaps_spec a b : valid a -> valid b ->
  overlaps a b = true <-> exists x, covers a x /\ covers b x.
Proof.
  intros Ha Hb. unfold overlaps. rewrite !orb_true_iff, !has_address_covers by assumption.
  rewrite !broadcast_eq by assumption.
  pose proof (size_pos a ltac:(apply Ha)). pose proof (size_pos b ltac:(apply Hb)).
  split.
  - intros [[[H1|H1]|H1]|H1].
    + exists (nver b, naddr b). split; [assumption|]. split; simpl; [reflexivity|lia].
    + exists (nver b, naddr b + size b - 1). split; [assumption|]. split; simpl; [reflexivity|lia].
    + exists (nver a, naddr a). split; [|assumption]. split; simpl; [reflexivity|lia].
    + exists (nver a, naddr a + size a - 1). split; [|assumption]. split; simpl; [reflexivity|lia].
  - intros [x [H1 H2]]. destruct (laminar a b x Ha Hb H1 H2) as [Hs|Hs].
    + left; right. apply Hs. split; simpl; [reflexivity|lia].
    + left; left; left. apply Hs. split; simpl; [reflexivity|lia].
Qed.

(** ** Comments *)
Lemma add_comment_prefix n c : prefix_of (add_comment n c) = prefix_of n.
Proof. reflexivity. Qed.

(** ** Supernet *)
Lemma land_pow2_mask a w k : 0 <= k <= w -> 0 <= a < 2 ^ w ->
  Z.land a (2 ^ w - 2 ^ k) = a - a mod 2 ^ k.
Proof.
  intros H Ha. rewrite <- lxor_ones by lia.
  assert (P := pow2_pos k ltac:(lia)).
  assert (E : a - a mod 2 ^ k = Z.shiftl (Z.shiftr a k) k).
  { rewrite Z.shiftl_mul_pow2, Z.shiftr_div_pow2 by lia.
    pose proof (Z.div_mod a (2 ^ k)). lia. }
  rewrite E. apply Z.bits_inj'. intros i Hi.
  rewrite Z.land_spec, Z.lxor_spec, !testbit_ones_pow, Z.shiftl_spec by lia.
  destruct (i <? k) eqn:Ek.
  - rewrite (Z.testbit_neg_r _ (i - k)) by lia.
    replace (i <? w) with true by lia. apply andb_false_r.
  - rewrite Z.shiftr_spec by lia. replace (i - k + k) with i by lia.
    rewrite xorb_false_r. destruct (i <? w) eqn:Ew; [apply andb_true_r|].
    rewrite andb_false_r. symmetry.
    destruct (Z.eq_dec a 0) as [->|Hn]; [apply Z.bits_0|].
    apply Z.bits_above_log2; [lia|]. apply Z.lt_le_trans with w; [|lia].
    apply Z.log2_lt_pow2; lia.
Qed.

Lemma shiftl_mask w k : 0 <= k -> Z.shiftl (2 ^ w - 2 ^ k) 1 = 2 * 2 ^ w - 2 ^ (k + 1).
Proof.
  intros Hk. rewrite Z.shiftl_mul_pow2 by lia. rewrite Z.pow_add_r by lia. lia.
Qed.

Lemma land_shifted a w k : 0 <= k < w -> 0 <= a < 2 ^ w ->
  Z.land a (Z.shiftl (2 ^ w - 2 ^ k) 1) = a - a mod 2 ^ (k + 1).
Proof.
  intros H Ha. rewrite shiftl_mask by lia.
  replace (2 * 2 ^ w) with (2 ^ (w + 1)) by (rewrite Z.pow_add_r by lia; lia).
  apply land_pow2_mask; [lia|]. rewrite Z.pow_add_r by lia. lia.
Qed.

Lemma supernet_spec n : valid n -> 0 < nlen n ->
  let m := supernet n in
  nver m = nver n /\ nlen m = nlen n - 1 /\
  naddr m = naddr n - naddr n mod (2 * size n) /\ size m = 2 * size n /\ valid m.
Proof.
  intros H Hp. pose proof H as (Hl & Ha & Hd). cbv zeta. unfold supernet.
  replace (nlen n =? 0) with false by lia. cbn [nver nlen naddr].
  assert (S1 : 2 ^ (width (nver n) - (nlen n - 1)) = 2 * size n).
  { unfold size. replace (width (nver n) - (nlen n - 1)) with (1 + (width (nver n) - nlen n)) by lia.
    rewrite Z.pow_add_r by lia. reflexivity. }
  assert (A : Z.land (naddr n) (Z.shiftl (netmask n) 1) = naddr n - naddr n mod (2 * size n)).
  { rewrite netmask_eq by lia. unfold size. rewrite land_shifted by lia.
    rewrite Z.pow_add_r by lia. f_equal. f_equal. lia. }
  pose proof (size_pos n ltac:(lia)) as P.
  repeat split; try lia.
  - unfold size at 1. cbn [nver nlen]. exact S1.
  - cbn [nver nlen]. lia.
  - cbn [nver nlen]. lia.
  - cbn [naddr]. rewrite A. pose proof (Z.div_mod (naddr n) (2 * size n)). pose proof (Z.div_pos (naddr n) (2 * size n)). nia.
  - cbn [naddr nver]. rewrite A. pose proof (Z.mod_pos_bound (naddr n) (2 * size n)). lia.
  - unfold size at 1. cbn [nver nlen naddr]. rewrite S1, A.
    exists (naddr n / (2 * size n)). pose proof (Z.div_mod (naddr n) (2 * size n)). lia.
Qed.

(** [mergeable] recognises the lower and upper half of one prefix. *)
Lemma mergeable_spec a b : valid a -> valid b ->
  mergeable a b = true <->
  (nver a = nver b /\ nlen a = nlen b /\ 0 < nlen a /\
   naddr b = naddr a + size a /\ (2 * size a | naddr a)).
Proof.
  intros Ha Hb. pose proof Ha as (Hl & Hn & Hd). unfold mergeable.
  rewrite !andb_true_iff, ver_eqb_eq, !Z.eqb_eq, broadcast_eq by assumption.
  rewrite netmask_eq, Z.land_comm by lia. pose proof (size_pos a ltac:(lia)) as P.
  split.
  - intros [[[Hv Hlen] Hadj] Hbit].
    assert (Hpos : 0 < nlen a).
    { destruct (Z.eq_dec (nlen a) 0) as [E|]; [exfalso|lia].
      pose proof (valid_end b Hb). pose proof (valid_end a Ha).
      assert (size a = 2 ^ width (nver a)) by (unfold size; f_equal; lia).
      pose proof (size_pos b ltac:(apply Hb)). rewrite <- Hv in *. lia. }
    repeat split; try assumption; try lia.
    unfold size in Hbit. rewrite land_shifted in Hbit by lia.
    apply Z.mod_divide; [lia|].
    replace (2 * size a) with (2 ^ (width (nver a) - nlen a + 1)); [lia|].
    unfold size. rewrite Z.pow_add_r by lia. lia.
  - intros (Hv & Hlen & Hpos & Hadj & Hdiv). repeat split; try assumption; try lia.
    unfold size. rewrite land_shifted by lia.
    replace (2 ^ (width (nver a) - nlen a + 1)) with (2 * size a)
      by (unfold size; rewrite Z.pow_add_r by lia; lia).
    apply Z.mod_divide in Hdiv; lia.
Qed.

Lemma mergeable_supernet a b : valid a -> valid b -> mergeable a b = true ->
  forall x, covers (supernet a) x <-> covers a x \/ covers b x.
Proof.
  intros Ha Hb Hm x. apply mergeable_spec in Hm; try assumption.
  destruct Hm as (Hv & Hlen & Hpos & Hadj & Hdiv).
  destruct (supernet_spec a Ha Hpos) as (S1 & S2 & S3 & S4 & S5).
  apply Z.mod_divide in Hdiv; [|pose proof (size_pos a ltac:(apply Ha)); lia].
  assert (Hs : size b = size a) by (unfold size; rewrite <- Hv, <- Hlen; reflexivity).
  unfold covers. rewrite S1, S3, S4, Hdiv, Hs, Hadj, <- Hv. split.
  - intros [Hx1 Hx2]. destruct (Z_lt_ge_dec (snd x) (naddr a + size a)); [left|right]; split; lia || assumption.
  - intros [[Hx1 Hx2]|[Hx1 Hx2]]; (split; [assumption|lia]).
Qed.
