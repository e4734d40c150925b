(** Proofs about summarizer.py. *)
From Coq Require Import Lia ZifyBool ZifyNat Permutation Sorted.
From Verif Require Import SpecSum IPFacts BaseFacts CollapseProofs CollapseMore TokenProofs.
Local Open Scope Z_scope.

Definition dwf (d : dsm) : Prop := 0 <= daddr d /\ 0 <= dmask d /\ Z.land (daddr d) (dmask d) = daddr d.

Lemma pow2_of_land x : 0 < x -> Z.land x (x - 1) = 0 -> exists k, 0 <= k /\ x = 2 ^ k.
Proof.
  intros Hx H. exists (Z.log2 x). split; [apply Z.log2_nonneg|].
  destruct (Z.eq_dec x (2 ^ Z.log2 x)) as [E|E]; [assumption|exfalso].
  pose proof (Z.log2_spec x Hx) as [H1 H2].
  assert (E2 : Z.log2 (x - 1) = Z.log2 x) by (apply Z.log2_unique; [apply Z.log2_nonneg|lia]).
  assert (Z.testbit (Z.land x (x - 1)) (Z.log2 x) = true).
  { rewrite Z.land_spec, Z.bit_log2 by lia. rewrite <- E2 at 1.
    rewrite Z.bit_log2; [reflexivity|]. pose proof (Z.log2_nonneg x).
    assert (0 < 2 ^ Z.log2 x) by (apply Z.pow_pos_nonneg; lia). lia. }
  rewrite H, Z.bits_0 in H0. discriminate.
Qed.

Lemma dwf_bit d i : dwf d -> Z.testbit (daddr d) i = true -> Z.testbit (dmask d) i = true.
Proof.
  intros (_ & _ & H) Hb. rewrite <- H, Z.land_spec in Hb. apply andb_prop in Hb. tauto.
Qed.

(** What a successful pair test means, bit by bit. *)
Lemma is_pair_bits c p : dwf c -> dwf p -> is_pair c p = true ->
  exists k, 0 <= k /\ dmask c = dmask p /\ Z.testbit (dmask c) k = true /\
    Z.lxor (daddr c) (daddr p) = 2 ^ k /\
    (forall i, i <> k -> Z.testbit (daddr c) i = Z.testbit (daddr p) i) /\
    Z.testbit (daddr c) k = negb (Z.testbit (daddr p) k).
Proof.
  intros Wc Wp H. unfold is_pair in H. rewrite !andb_true_iff in H. destruct H as [[H1 H2] H3].
  assert (Hx : 0 < Z.lxor (daddr c) (daddr p)) by lia.
  destruct (pow2_of_land _ Hx ltac:(lia)) as [k [Hk E]]. exists k.
  assert (Hb : forall i, xorb (Z.testbit (daddr c) i) (Z.testbit (daddr p) i) = (k =? i)).
  { intros i. rewrite <- Z.lxor_spec, E. apply Z.pow2_bits_eqb. assumption. }
  assert (Em : dmask c = dmask p) by lia.
  split; [assumption|]. split; [assumption|].
  pose proof (Hb k) as Hk1. rewrite Z.eqb_refl in Hk1.
  split; [|split; [assumption|split]].
  - destruct (Z.testbit (daddr c) k) eqn:Ec; [apply dwf_bit; assumption|].
    rewrite Em. apply dwf_bit; [assumption|]. destruct (Z.testbit (daddr p) k); [reflexivity|discriminate].
  - intros i Hi. specialize (Hb i). assert (Ei : (k =? i) = false) by lia. rewrite Ei in Hb.
    destruct (Z.testbit (daddr c) i), (Z.testbit (daddr p) i); simpl in Hb; congruence.
  - destruct (Z.testbit (daddr c) k), (Z.testbit (daddr p) k); simpl in *; congruence.
Qed.

Lemma bit_set_add a b k : 0 <= k -> 0 <= a -> 0 <= b ->
  (forall i, i <> k -> Z.testbit a i = Z.testbit b i) ->
  Z.testbit a k = false -> Z.testbit b k = true -> b = a + 2 ^ k.
Proof.
  intros Hk Ha Hb H H1 H2. rewrite Z.add_nocarry_lxor.
  - apply Z.bits_inj'. intros i Hi. rewrite Z.lxor_spec, Z.pow2_bits_eqb by assumption.
    destruct (k =? i) eqn:E.
    + assert (k = i) by lia. subst i. rewrite H1, H2. reflexivity.
    + rewrite H by lia. rewrite xorb_false_r. reflexivity.
  - apply Z.bits_inj'. intros i Hi. rewrite Z.land_spec, Z.pow2_bits_eqb, Z.bits_0 by assumption.
    destruct (k =? i) eqn:E; [|apply andb_false_r]. assert (k = i) by lia. subst. rewrite H1. reflexivity.
Qed.

Lemma join_pair_spec c p : dwf c -> dwf p -> is_pair c p = true ->
  dwf (join_pair c p) /\
  (forall x, dsm_match (join_pair c p) x <-> dsm_match c x \/ dsm_match p x).
Proof.
  intros Wc Wp H. destruct (is_pair_bits c p Wc Wp H) as (k & Hk & Em & Hmk & Ex & Hne & Hneg).
  destruct Wc as (C1 & C2 & C3) eqn:EWc. destruct Wp as (P1 & P2 & P3) eqn:EWp.
  assert (Hmin : forall i, 0 <= i -> Z.testbit (Z.min (daddr c) (daddr p)) i =
                   if i =? k then false else Z.testbit (daddr c) i).
  { assert (0 < 2 ^ k) by (apply Z.pow_pos_nonneg; lia).
    destruct (Z.testbit (daddr c) k) eqn:Ec.
    - assert (Ep : Z.testbit (daddr p) k = false) by (destruct (Z.testbit (daddr p) k); [discriminate|reflexivity]).
      assert (Eq : daddr c = daddr p + 2 ^ k).
      { apply bit_set_add; try assumption. intros i Hi. symmetry. apply Hne. assumption. }
      rewrite Z.min_r by lia. intros i Hi. destruct (i =? k) eqn:Ei.
      + assert (i = k) by lia. subst. assumption.
      + symmetry. apply Hne. lia.
    - assert (Ep : Z.testbit (daddr p) k = true) by (destruct (Z.testbit (daddr p) k); [reflexivity|discriminate]).
      assert (Eq : daddr p = daddr c + 2 ^ k) by (apply bit_set_add; assumption).
      rewrite Z.min_l by lia. intros i Hi. destruct (i =? k) eqn:Ei; [|reflexivity].
      assert (i = k) by lia. subst. assumption. }
  assert (Hmask : forall i, 0 <= i -> Z.testbit (Z.lxor (dmask c) (Z.lxor (daddr c) (daddr p))) i =
                   if i =? k then false else Z.testbit (dmask c) i).
  { intros i Hi. rewrite Z.lxor_spec, Ex, Z.pow2_bits_eqb by assumption.
    rewrite (Z.eqb_sym k i). destruct (i =? k) eqn:E.
    - assert (i = k) by lia. subst. rewrite Hmk. reflexivity.
    - apply xorb_false_r. }
  split.
  - unfold dwf, join_pair. cbn [daddr dmask]. split; [lia|]. split.
    + apply Z.lxor_nonneg. split; intros _; [|assumption]. apply Z.lxor_nonneg. tauto.
    + apply Z.bits_inj'. intros i Hi. rewrite Z.land_spec, Hmin, Hmask by assumption.
      destruct (i =? k); [reflexivity|].
      rewrite <- Z.land_spec, C3. reflexivity.
  - intros x. unfold dsm_match, join_pair. cbn [daddr dmask]. split.
    + intros Hx.
      assert (Hc : forall i, 0 <= i -> i <> k -> Z.testbit (dmask c) i = true -> Z.testbit x i = Z.testbit (daddr c) i).
      { intros i Hi Hik Hm. assert (Ei : (i =? k) = false) by lia.
        rewrite Hx; [rewrite Hmin, Ei by assumption; reflexivity|assumption|rewrite Hmask, Ei by assumption; assumption]. }
      destruct (Bool.bool_dec (Z.testbit x k) (Z.testbit (daddr c) k)) as [E|E].
      * left. intros i Hi Hm. destruct (Z.eq_dec i k) as [->|]; [assumption|auto].
      * right. intros i Hi Hm. rewrite <- Em in Hm. destruct (Z.eq_dec i k) as [->|Hik].
        -- rewrite Hneg in E. destruct (Z.testbit x k), (Z.testbit (daddr p) k); simpl in E; congruence.
        -- rewrite <- Hne by assumption. auto.
    + intros Hx i Hi Hm. rewrite Hmask in Hm by assumption. rewrite Hmin by assumption.
      destruct (i =? k) eqn:E; [discriminate|]. destruct Hx as [Hx|Hx].
      * apply Hx; assumption.
      * rewrite Hx; [symmetry; apply Hne; lia|assumption|rewrite <- Em; assumption].
Qed.

Lemma merge_text_keeps d t : contains (merge_text d t) (dtext d) /\ contains (merge_text d t) t.
Proof.
  set (n := mkNet V4 0 0 (dtext d) "" "").
  assert (E : merge_text d t = ntext (add_comment n t)) by reflexivity. rewrite E.
  split; [apply (add_comment_keeps n t)|apply (add_comment_adds n t)].
Qed.

(** [d'] stands for [d]: it matches at least as much and keeps the comment. *)
Definition drep (d d' : dsm) : Prop :=
  (forall x, dsm_match d x -> dsm_match d' x) /\ contains (dtext d') (dtext d).
Lemma drep_refl d : drep d d.
Proof. split; [auto|apply contains_refl]. Qed.

(** A property kept by pairing. *)
Definition closed (Q : dsm -> Prop) : Prop :=
  forall c p, dwf c -> dwf p -> Q c -> Q p -> is_pair c p = true -> Q (join_pair c p).

(** [l'] replaces [l]. *)
Definition absorb (l l' : list dsm) : Prop :=
  Forall dwf l -> Forall dwf l' /\
    (forall Q, closed Q -> Forall Q l -> Forall Q l') /\
    (forall x, dsm_matched l x <-> dsm_matched l' x) /\
    (forall d, In d l -> exists d', In d' l' /\ drep d d') /\
    (List.length l' <= List.length l)%nat.

Lemma absorb_perm l l' : Permutation l l' -> absorb l l'.
Proof.
  intros HP Hw. split; [|split; [|split; [|split]]].
  - eapply Permutation_Forall; eauto.
  - intros Q _ HQ. eapply Permutation_Forall; eauto.
  - intros x. unfold dsm_matched. split; intros [d [Hd Hx]]; exists d; (split; [|assumption]);
      eapply Permutation_in; try eassumption. apply Permutation_sym; assumption.
  - intros d Hd. exists d. split; [eapply Permutation_in; eassumption|apply drep_refl].
  - rewrite (Permutation_length HP). lia.
Qed.
Lemma absorb_trans a b c : absorb a b -> absorb b c -> absorb a c.
Proof.
  intros H1 H2 Hw. destruct (H1 Hw) as (W1 & Q1 & M1 & R1 & L1). destruct (H2 W1) as (W2 & Q2 & M2 & R2 & L2).
  split; [assumption|]. split; [auto|]. split; [|split; [|lia]].
  - intros x. rewrite M1. apply M2.
  - intros d Hd. destruct (R1 d Hd) as [d1 [Hd1 [S1 T1]]]. destruct (R2 d1 Hd1) as [d2 [Hd2 [S2 T2]]].
    exists d2. split; [assumption|]. split; [auto|]. eapply contains_trans; eauto.
Qed.

Lemma dsm_matched_cons d l x : dsm_matched (d :: l) x <-> dsm_match d x \/ dsm_matched l x.
Proof.
  unfold dsm_matched. split.
  - intros [e [[<-|H] He]]; [left; assumption|right; eauto].
  - intros [H|[e [H He]]]; [exists d; simpl; auto|exists e; simpl; auto].
Qed.

Lemma absorb_join c p l : is_pair c p = true -> absorb (c :: p :: l) (join_pair c p :: l).
Proof.
  intros H Hw. inversion Hw as [|? ? Wc Hw1]; subst. inversion Hw1 as [|? ? Wp Hw2]; subst.
  destruct (join_pair_spec c p Wc Wp H) as [Wj Mj]. split; [constructor; assumption|].
  split; [|split; [|split; [|simpl; lia]]].
  - intros Q HQ HF. inversion HF as [|? ? Qc HF1]; subst. inversion HF1 as [|? ? Qp HF2]; subst.
    constructor; [apply HQ; assumption|assumption].
  - intros x. rewrite !dsm_matched_cons, Mj. tauto.
  - pose proof (merge_text_keeps c (dtext p)) as [T1 T2].
    intros d [<-|[<-|Hd]].
    + exists (join_pair c p). split; [left; reflexivity|]. split; [|exact T1]. intros x Hx. apply Mj. auto.
    + exists (join_pair c p). split; [left; reflexivity|]. split; [|exact T2]. intros x Hx. apply Mj. auto.
    + exists d. split; [right; assumption|apply drep_refl].
Qed.

Lemma find_pair_perm c : forall l p r, find_pair c l = Some (p, r) ->
  is_pair c p = true /\ Permutation l (p :: r).
Proof.
  induction l as [|q l IH]; cbn [find_pair]; intros p r H; [discriminate|].
  destruct (is_pair c q) eqn:E.
  - injection H as <- <-. split; [assumption|apply Permutation_refl].
  - destruct (find_pair c l) as [[q' r']|]; [|discriminate]. injection H as <- <-.
    destruct (IH q' r' eq_refl) as [H1 H2]. split; [assumption|].
    apply perm_trans with (q :: q' :: r'); [constructor; assumption|constructor].
Qed.

Lemma sum_pass_spec : forall fuel cur s cb, (List.length cur <= fuel)%nat ->
  exists s' cb', sum_pass fuel cur s cb = Ok (s', cb') /\
    absorb (cur ++ s ++ cb) (s' ++ cb') /\
    (2 * List.length cb' <= 2 * List.length cb + List.length cur)%nat.
Proof.
  induction fuel as [|fuel IH]; intros cur s cb Hl.
  - destruct cur; [|simpl in Hl; lia]. cbn [sum_pass]. exists s, cb. split; [reflexivity|].
    split; [apply absorb_perm, Permutation_refl|simpl; lia].
  - destruct cur as [|c rest]; cbn [sum_pass].
    { exists s, cb. split; [reflexivity|]. split; [apply absorb_perm, Permutation_refl|simpl; lia]. }
    destruct (find_pair c rest) as [[p rest']|] eqn:E.
    + destruct (find_pair_perm c rest p rest' E) as [E1 E2].
      pose proof (Permutation_length E2) as EL. simpl in EL, Hl.
      destruct (IH rest' s (cb ++ [join_pair c p]) ltac:(lia)) as (s' & cb' & H1 & H2 & H3).
      exists s', cb'. split; [assumption|]. split.
      * eapply absorb_trans; [|exact H2].
        eapply absorb_trans; [apply absorb_perm|].
        { cbn [app]. constructor. apply Permutation_app_tail. exact E2. }
        cbn [app]. eapply absorb_trans; [apply absorb_join; exact E1|].
        apply absorb_perm. rewrite !app_assoc. apply Permutation_cons_append.
      * rewrite app_length in H3. simpl in *. lia.
    + simpl in Hl. destruct (IH rest (s ++ [c]) cb ltac:(lia)) as (s' & cb' & H1 & H2 & H3).
      exists s', cb'. split; [assumption|]. split.
      * eapply absorb_trans; [|exact H2]. apply absorb_perm. cbn [app].
        apply perm_trans with (rest ++ c :: s ++ cb); [apply Permutation_middle|].
        apply Permutation_app_head. rewrite <- app_assoc. cbn [app].
        apply Permutation_middle.
      * simpl. lia.
Qed.

Lemma sum_rounds_spec : forall fuel cb s, (List.length cb <= fuel)%nat ->
  exists r, sum_rounds fuel cb s = Ok r /\ absorb (cb ++ s) r.
Proof.
  induction fuel as [|fuel IH]; intros cb s Hl.
  - destruct cb; [|simpl in Hl; lia]. cbn [sum_rounds]. exists s. split; [reflexivity|apply absorb_perm, Permutation_refl].
  - destruct cb as [|c cb].
    { cbn [sum_rounds]. exists s. split; [reflexivity|apply absorb_perm, Permutation_refl]. }
    cbn [sum_rounds].
    destruct (sum_pass_spec (List.length (c :: cb)) (c :: cb) s [] (le_n _)) as (s' & cb' & H1 & H2 & H3).
    rewrite H1. cbn [bind]. simpl in H3, Hl.
    destruct (IH cb' s' ltac:(lia)) as (r & R1 & R2). exists r. split; [assumption|].
    rewrite app_nil_r in H2. eapply absorb_trans; [exact H2|].
    eapply absorb_trans; [|exact R2]. apply absorb_perm, Permutation_app_comm.
Qed.

Lemma same_mask_spec l : exists r, summarize_same_mask l = Ok r /\ absorb l r.
Proof.
  destruct (sum_rounds_spec (List.length l) l [] (le_n _)) as (r & R1 & R2).
  exists r. rewrite app_nil_r in R2. auto.
Qed.

(** ** Grouping *)
Lemma add_group_perm k d : forall g, Permutation (concat (map snd (add_group k d g))) (d :: concat (map snd g)).
Proof.
  induction g as [|[k' l] g IH]; cbn [add_group]; [apply Permutation_refl|].
  destruct (k =? k'); simpl.
  - rewrite <- app_assoc. cbn [app]. apply Permutation_sym, Permutation_middle.
  - apply perm_trans with (l ++ d :: concat (map snd g)); [apply Permutation_app_head; exact IH|].
    apply Permutation_sym, Permutation_middle.
Qed.
Lemma group_perm nets : Permutation (concat (map snd (group_by_len nets))) (map dsm_of_net nets).
Proof.
  unfold group_by_len.
  assert (G : forall g, Permutation (concat (map snd (fold_left (fun g n => add_group (nlen n) (dsm_of_net n) g) nets g)))
                          (concat (map snd g) ++ map dsm_of_net nets)).
  { induction nets as [|n nets IH]; intros g; cbn [fold_left map].
    - rewrite app_nil_r. apply Permutation_refl.
    - eapply perm_trans; [apply IH|]. eapply perm_trans; [apply Permutation_app_tail, add_group_perm|].
      cbn [app]. apply Permutation_middle. }
  apply (G []).
Qed.

Lemma absorb_concat : forall (gs : list (Z * list dsm)) parts,
  mapM (fun g => summarize_same_mask (snd g)) gs = Ok parts ->
  absorb (concat (map snd gs)) (concat parts).
Proof.
  induction gs as [|[k l] gs IH]; cbn [mapM]; intros parts H.
  - injection H as <-. apply absorb_perm, Permutation_refl.
  - apply bind_ok in H. destruct H as [r [H1 H]]. apply bind_ok in H. destruct H as [rs [H2 H]].
    injection H as <-. specialize (IH rs H2). cbn [snd] in H1.
    destruct (same_mask_spec l) as [r' [E1 E2]]. assert (r' = r) by congruence. subst r'.
    cbn [map concat snd]. intros Hw. apply Forall_app in Hw. destruct Hw as [W1 W2].
    destruct (E2 W1) as (A1 & A0 & A2 & A3 & A4). destruct (IH W2) as (B1 & B0 & B2 & B3 & B4).
    split; [apply Forall_app; auto|]. split; [|split; [|split]].
    + intros Q HQ HF. apply Forall_app in HF. apply Forall_app. destruct HF. auto.
    + assert (HM : forall a b x, dsm_matched (a ++ b) x <-> dsm_matched a x \/ dsm_matched b x).
      { intros a b x. induction a as [|e a IHa]; cbn [app].
        - unfold dsm_matched at 2. split; [tauto|]. intros [[d [[] _]]|Hd]; assumption.
        - rewrite !dsm_matched_cons, IHa. tauto. }
      intros x. rewrite !HM, A2, B2. tauto.
    + intros d Hd. apply in_app_or in Hd. destruct Hd as [Hd|Hd].
      * destruct (A3 d Hd) as [d' [Hd' Hr]]. exists d'. split; [apply in_or_app; auto|assumption].
      * destruct (B3 d Hd) as [d' [Hd' Hr]]. exists d'. split; [apply in_or_app; auto|assumption].
    + rewrite !app_length. lia.
Qed.

(** ** A network as (address, mask) *)
Lemma dsm_mask_bit n i : 0 <= nlen n <= width (nver n) -> 0 <= i ->
  Z.testbit (dmask (dsm_of_net n)) i = (width (nver n) - nlen n <=? i) && (i <? width (nver n)).
Proof.
  intros Hl Hi. unfold dsm_of_net. cbn [dmask]. rewrite Z.shiftl_spec by assumption.
  rewrite Z.shiftl_mul_pow2, Z.mul_1_l by lia.
  replace (2 ^ nlen n - 1) with (Z.ones (nlen n)) by (rewrite Z.ones_equiv; lia).
  destruct (Z_lt_ge_dec (i - (width (nver n) - nlen n)) 0).
  - rewrite Z.testbit_neg_r by assumption. lia.
  - rewrite Z.testbit_ones_nonneg by lia. lia.
Qed.

Lemma dsm_of_net_wf n : valid n -> dwf (dsm_of_net n).
Proof.
  intros (Hl & Ha & Hd). unfold dwf. split; [simpl; lia|]. split.
  - unfold dsm_of_net. cbn [dmask]. apply Z.shiftl_nonneg. rewrite Z.shiftl_mul_pow2 by lia.
    assert (0 < 2 ^ nlen n) by (apply Z.pow_pos_nonneg; lia). lia.
  - apply Z.bits_inj'. intros i Hi. rewrite Z.land_spec, dsm_mask_bit by assumption. cbn [daddr dsm_of_net].
    destruct (width (nver n) - nlen n <=? i) eqn:E1; [destruct (i <? width (nver n)) eqn:E2|]; cbn [andb].
    + apply andb_true_r.
    + rewrite andb_false_r. symmetry. destruct (Z.eq_dec (naddr n) 0) as [->|]; [apply Z.bits_0|].
      apply Z.bits_above_log2; [lia|]. apply Z.lt_le_trans with (width (nver n)); [|lia].
      apply Z.log2_lt_pow2; lia.
    + rewrite andb_false_r. symmetry. destruct Hd as [q Hq]. unfold size in Hq. rewrite Hq.
      rewrite <- Z.shiftl_mul_pow2 by lia.
      apply Z.shiftl_spec_low. lia.
Qed.

Lemma dsm_of_net_match n x : valid n -> 0 <= x < 2 ^ width (nver n) ->
  dsm_match (dsm_of_net n) x <-> covers n (nver n, x).
Proof.
  intros (Hl & Ha & Hd) Hx. set (h := width (nver n) - nlen n) in *.
  assert (Hsz : 0 < size n) by (unfold size; apply Z.pow_pos_nonneg; lia).
  assert (Hhi : forall y i, 0 <= y < 2 ^ width (nver n) -> width (nver n) <= i -> Z.testbit y i = false).
  { intros y i Hy Hi. destruct (Z.eq_dec y 0) as [->|]; [apply Z.bits_0|].
    apply Z.bits_above_log2; [lia|]. apply Z.lt_le_trans with (width (nver n)); [|lia]. apply Z.log2_lt_pow2; lia. }
  assert (E : dsm_match (dsm_of_net n) x <-> Z.shiftr x h = Z.shiftr (naddr n) h).
  { unfold dsm_match. split.
    - intros H. apply Z.bits_inj'. intros i Hi. rewrite !Z.shiftr_spec by assumption.
      destruct (Z_lt_ge_dec (i + h) (width (nver n))) as [L|G].
      + apply H; [lia|]. rewrite dsm_mask_bit by lia. unfold h in *. lia.
      + rewrite !Hhi by (assumption || lia). reflexivity.
    - intros H i Hi Hm. rewrite dsm_mask_bit in Hm by lia. fold h in Hm.
      assert (HB : Z.testbit (Z.shiftr x h) (i - h) = Z.testbit (Z.shiftr (naddr n) h) (i - h)) by (rewrite H; reflexivity).
      rewrite !Z.shiftr_spec in HB by lia. replace (i - h + h) with i in HB by lia. exact HB. }
  rewrite E. rewrite !Z.shiftr_div_pow2 by lia. change (2 ^ h) with (size n).
  destruct Hd as [q Hq]. rewrite Hq, Z.div_mul by lia.
  unfold covers. cbn [fst snd]. rewrite Hq.
  pose proof (Z.div_mod x (size n) ltac:(lia)). pose proof (Z.mod_pos_bound x (size n) Hsz).
  split.
  - intros EQ. split; [reflexivity|]. nia.
  - intros [_ B]. symmetry. apply Z.div_unique with (x - q * size n); lia.
Qed.

Lemma covers_bound n v x : valid n -> covers n (v, x) -> nver n = v /\ 0 <= x < 2 ^ width v.
Proof.
  intros V [E B]. cbn [fst snd] in *. subst v. split; [reflexivity|].
  pose proof (valid_end n V). destruct V as (_ & Ha & _). lia.
Qed.

Lemma StronglySorted_impl {A} (R S : A -> A -> Prop) l :
  (forall a b, R a b -> S a b) -> StronglySorted R l -> StronglySorted S l.
Proof.
  intros H. induction 1 as [|a l Hs IH Ha]; constructor; [assumption|].
  eapply Forall_impl; [|exact Ha]. auto.
Qed.

Lemma summarize_spec v nets : valid_list nets -> Forall (fun n => nver n = v) nets ->
  exists r, summarize nets = Ok r /\
    (forall x, 0 <= x < 2 ^ width v -> dsm_matched r x <-> covered nets (v, x)) /\
    (forall n, In n nets -> exists d, In d r /\ (forall x, covers n (v, x) -> dsm_match d x) /\ contains (dtext d) (ntext n)) /\
    StronglySorted (fun a b => daddr a <= daddr b) r /\
    Forall dwf r /\
    (forall c, collapse_addr_list nets [] = Ok c -> (List.length r <= List.length c)%nat) /\
    (forall Q, closed Q -> (forall n, valid n -> nver n = v -> (forall x, covers n x -> covered nets x) -> Q (dsm_of_net n)) -> Forall Q r).
Proof.
  intros V Hv. unfold summarize.
  destruct (collapse_total_canonical nets V) as (c & C1 & C2 & C3). rewrite C1. cbn [bind].
  destruct (mapM_ok (fun g => summarize_same_mask (snd g)) (group_by_len c)) as [parts Hp].
  { intros g _. destruct (same_mask_spec (snd g)) as [r [Hr _]]. eauto. }
  rewrite Hp. cbn [bind]. eexists. split; [reflexivity|].
  assert (HA : absorb (map dsm_of_net c) (py_sorted dsm_leb (concat parts))).
  { eapply absorb_trans; [apply absorb_perm, Permutation_sym, group_perm|].
    eapply absorb_trans; [apply absorb_concat; exact Hp|].
    apply absorb_perm, Permutation_sym, py_sorted_perm. }
  assert (Wc : Forall dwf (map dsm_of_net c)).
  { rewrite Forall_forall. intros d Hd. apply in_map_iff in Hd. destruct Hd as [n [<- Hn]].
    apply dsm_of_net_wf. unfold valid_list in C2. rewrite Forall_forall in C2. auto. }
  destruct (HA Wc) as (W & HQ & M & R & L).
  pose proof (proj2 (collapse_coverage nets [] c V C1)) as Hcov.
  unfold valid_list in C2. rewrite Forall_forall in C2, Hv.
  assert (Hvc : forall n, In n c -> nver n = v).
  { intros n Hn. pose proof (size_pos n ltac:(apply (C2 n Hn))).
    destruct (proj1 (Hcov (nver n, naddr n))) as [m [Hm [E _]]].
    - exists n. split; [assumption|]. split; simpl; [reflexivity|lia].
    - cbn [fst] in E. rewrite <- E. apply Hv. assumption. }
  split; [|split; [|split; [|split; [|split]]]].
  - intros x Hx. rewrite <- M, <- Hcov. unfold dsm_matched, covered. split.
    + intros [d [Hd Hm]]. apply in_map_iff in Hd. destruct Hd as [n [<- Hn]]. exists n. split; [assumption|].
      rewrite <- (Hvc n Hn). apply dsm_of_net_match; auto. rewrite (Hvc n Hn). assumption.
    + intros [n [Hn Hc]]. exists (dsm_of_net n). split; [apply in_map; assumption|].
      apply dsm_of_net_match; auto; rewrite (Hvc n Hn); assumption.
  - intros n Hn. destruct (collapse_rep nets [] c V C1 n Hn) as (m & Hm & Hs & Ht).
    destruct (R (dsm_of_net m) (in_map _ _ _ Hm)) as [d [Hd [D1 D2]]].
    exists d. split; [assumption|]. split; [|eapply contains_trans; eauto].
    intros x Hx. apply D1. pose proof (Hs _ Hx) as Hmx.
    destruct (covers_bound m v x (C2 m Hm) Hmx) as [Ev Hb].
    apply dsm_of_net_match; auto; rewrite Ev; assumption.
  - assert (HS : StronglySorted (fun a b => dsm_leb a b = true) (py_sorted dsm_leb (concat parts))).
    { apply py_sorted_sorted with (P := fun _ => True); unfold dsm_leb; [lia|lia|apply Forall_forall; auto]. }
    eapply StronglySorted_impl; [|exact HS]. unfold dsm_leb. intros; lia.
  - assumption.
  - intros c' Hc'. assert (c' = c) by congruence. subst. rewrite map_length in L. exact L.
  - intros Q HcQ Hinit. apply HQ; [assumption|]. rewrite Forall_forall. intros d Hd. apply in_map_iff in Hd.
    destruct Hd as [n [<- Hn]]. apply Hinit; [auto|auto|]. intros x Hx. apply Hcov. exists n; auto.
Qed.

(** ** Rendering *)
Lemma octet num k : 0 <= k -> Z.land (Z.shiftr num k) 255 = (num / 2 ^ k) mod 256.
Proof.
  intros Hk. rewrite Z.shiftr_div_pow2 by assumption. change 255 with (Z.ones 8).
  apply Z.land_ones. lia.
Qed.

Lemma quad_sum num : (((num / 2 ^ 24) mod 256 * 256 + (num / 2 ^ 16) mod 256) * 256 + (num / 2 ^ 8) mod 256) * 256
  + (num / 2 ^ 0) mod 256 = num mod 2 ^ 32.
Proof.
  change (2 ^ 24) with (2 ^ 16 * 256). change (2 ^ 16) with (2 ^ 8 * 256). change (2 ^ 8) with (1 * 256).
  change (2 ^ 0) with 1. change (2 ^ 32) with (256 * (256 * (256 * 256))).
  rewrite Z.mul_1_l, Z.div_1_r. rewrite <- !Z.div_div by lia.
  rewrite (Z.rem_mul_r num 256) by lia. rewrite (Z.rem_mul_r (num / 256) 256) by lia.
  rewrite (Z.rem_mul_r (num / 256 / 256) 256) by lia. ring.
Qed.

Lemma quad_denotes num : denotes_quad (int32_to_dotted_quad num) (num mod 2 ^ 32).
Proof.
  unfold denotes_quad, int32_to_dotted_quad. rewrite !octet by lia. cbn [join].
  exists ((num / 2 ^ 24) mod 256), ((num / 2 ^ 16) mod 256), ((num / 2 ^ 8) mod 256), ((num / 2 ^ 0) mod 256).
  exists (dec ((num / 2 ^ 24) mod 256)), (dec ((num / 2 ^ 16) mod 256)),
         (dec ((num / 2 ^ 8) mod 256)), (dec ((num / 2 ^ 0) mod 256)).
  assert (B : forall z, 0 <= z mod 256 < 256) by (intros; apply Z.mod_pos_bound; lia).
  split; [reflexivity|].
  do 4 (split; [apply dec_value; apply B|]).
  do 4 (split; [apply B|]). symmetry. apply quad_sum.
Qed.

(** Reading a dotted quad back; used only to show that the text determines the number. *)
Fixpoint qscan (s : string) (acc cur : Z) : option Z :=
  match s with
  | EmptyString => Some (acc * 256 + cur)
  | String c s' =>
      if Ascii.eqb c "." then qscan s' (acc * 256 + cur) 0
      else match digit_value c with Some d => qscan s' acc (cur * 10 + d) | None => None end
  end.
Lemma qscan_digits : forall t s acc cur v, digits_value t cur = Some v -> qscan (t ++ s) acc cur = qscan s acc v.
Proof.
  induction t as [|c t IH]; intros s acc cur v H.
  - cbn [digits_value] in H. injection H as <-. reflexivity.
  - cbn [digits_value] in H. cbn [append qscan]. destruct (digit_value c) as [d|] eqn:E; [|discriminate].
    destruct (Ascii.eqb c ".") eqn:Ec; [apply Ascii.eqb_eq in Ec; subst c; discriminate E|]. apply IH. exact H.
Qed.
Lemma qscan_dec n s acc : 0 <= n -> qscan (dec n ++ s) acc 0 = qscan s acc n.
Proof.
  intros Hn. apply qscan_digits. pose proof (dec_value n Hn) as H. unfold numeral_value in H.
  destruct (dec n); [discriminate|exact H].
Qed.
Lemma qscan_quad num : qscan (int32_to_dotted_quad num) 0 0 = Some (num mod 2 ^ 32).
Proof.
  unfold int32_to_dotted_quad. rewrite !octet by lia. cbn [join].
  assert (B : forall z, 0 <= z mod 256) by (intros; apply Z.mod_pos_bound; lia).
  rewrite qscan_dec by apply B. cbn [append qscan]. change (Ascii.eqb "." ".") with true. cbv iota.
  rewrite qscan_dec by apply B. cbn [append qscan]. change (Ascii.eqb "." ".") with true. cbv iota.
  rewrite qscan_dec by apply B. cbn [append qscan]. change (Ascii.eqb "." ".") with true. cbv iota.
  rewrite <- (str_app_nil (dec ((num / 2 ^ 0) mod 256))).
  rewrite qscan_dec by apply B. cbn [qscan]. f_equal. rewrite <- quad_sum. ring.
Qed.

Lemma leading_ones_spec : forall k m, let p := leading_ones k m in
  0 <= p <= Z.of_nat k /\
  (forall i, Z.of_nat k - p <= i < Z.of_nat k -> Z.testbit m i = true).
Proof.
  induction k as [|k IH]; intros m; cbn [leading_ones]; cbv zeta.
  - split; [lia|]. intros i Hi. lia.
  - specialize (IH m). cbv zeta in IH. destruct IH as [B H].
    destruct (Z.testbit m (Z.of_nat k)) eqn:E.
    + split; [lia|]. intros i Hi. destruct (Z.eq_dec i (Z.of_nat k)) as [->|]; [assumption|]. apply H. lia.
    + split; [lia|]. intros i Hi. lia.
Qed.

Definition contiguous_ok (p : Z) : bool :=
  let m := 2 ^ 32 - 2 ^ (32 - p) in
  (leading_ones 32 m =? p) && (Z.land m (Z.ones (32 - p)) =? 0).
Lemma contiguous_all p : 0 <= p <= 32 -> contiguous_ok p = true.
Proof.
  intros H. assert (E : exists k : nat, (k < 33)%nat /\ p = Z.of_nat k) by (exists (Z.to_nat p); lia).
  destruct E as [k [Hk ->]]. do 33 (destruct k as [|k]; [vm_compute; reflexivity|]). lia.
Qed.

Lemma nondsm_spec m : 0 <= m < 2 ^ 32 ->
  (exists p, 0 <= p <= 32 /\ m = 2 ^ 32 - 2 ^ (32 - p) /\ prefixlen_for_nondsm m = dec p) \/
  ((forall p, 0 <= p <= 32 -> m <> 2 ^ 32 - 2 ^ (32 - p)) /\ denotes_quad (prefixlen_for_nondsm m) m).
Proof.
  intros Hm. unfold prefixlen_for_nondsm.
  destruct (String.eqb (int32_to_dotted_quad m) "255.255.255.255") eqn:E.
  - apply String.eqb_eq in E. left. exists 32. split; [lia|]. split; [|reflexivity].
    pose proof (qscan_quad m) as Q. rewrite E in Q.
    assert (Q' : qscan "255.255.255.255" 0 0 = Some (2 ^ 32 - 1)) by (vm_compute; reflexivity).
    rewrite Q' in Q. injection Q as Q. rewrite Z.mod_small in Q by lia. simpl. lia.
  - destruct (m <? 0) eqn:E0; [lia|]. cbv zeta.
    pose proof (leading_ones_spec 32 m) as [B H]. change (Z.of_nat 32) with 32 in *.
    set (p := leading_ones 32 m) in *. destruct (Z.land m (Z.ones (32 - p)) =? 0) eqn:E1.
    + left. exists p. split; [assumption|]. split; [|reflexivity]. apply Z.eqb_eq in E1.
      rewrite Z.land_ones in E1 by lia.
      assert (Hh : m / 2 ^ (32 - p) = Z.ones p).
      { apply Z.bits_inj'. intros i Hi. rewrite <- Z.shiftr_div_pow2 by lia. rewrite Z.shiftr_spec by assumption.
        rewrite Z.testbit_ones_nonneg by lia. destruct (i <? p) eqn:Ei.
        - apply H. lia.
        - destruct (Z.eq_dec m 0) as [->|]; [apply Z.bits_0|]. apply Z.bits_above_log2; [lia|].
          apply Z.lt_le_trans with 32; [apply Z.log2_lt_pow2; lia|lia]. }
      assert (0 < 2 ^ (32 - p)) by (apply Z.pow_pos_nonneg; lia).
      pose proof (Z.div_mod m (2 ^ (32 - p)) ltac:(lia)) as DM. rewrite E1, Hh, Z.ones_equiv in DM.
      assert (2 ^ 32 = 2 ^ (32 - p) * 2 ^ p) by (rewrite <- Z.pow_add_r by lia; f_equal; lia).
      nia.
    + right. split.
      * intros q Hq Eq. pose proof (contiguous_all q Hq) as C. unfold contiguous_ok in C. rewrite <- Eq in C.
        fold p in C. assert (p = q) by lia. subst q. lia.
      * pose proof (quad_denotes m) as D. rewrite Z.mod_small in D by lia. exact D.
Qed.

Lemma to_dotted_quad_spec d negate : 0 <= daddr d -> 0 <= dmask d ->
  (forall a m, to_dotted_quad d negate false = Ok (a, m) ->
     denotes_quad a (daddr d) /\
     denotes_quad m (if negate then 2 ^ 32 - 1 - dmask d else dmask d)) /\
  ((exists a m, to_dotted_quad d negate false = Ok (a, m)) <->
     daddr d < 2 ^ 32 /\ (dmask d = 0 \/ 2 ^ 31 <= dmask d < 2 ^ 32)).
Proof.
  intros Ha Hm. unfold to_dotted_quad. rewrite !Z.abs_eq by assumption.
  assert (BL : forall x, 0 <= x -> (32 <? bit_length x) = false <-> x < 2 ^ 32).
  { intros x Hx. unfold bit_length. destruct (x =? 0) eqn:E; [split; [|reflexivity]; intros; assert (0 < 2 ^ 32) by reflexivity; lia|].
    rewrite Z.ltb_ge. pose proof (Z.log2_lt_pow2 x 32 ltac:(lia)). lia. }
  assert (BM : forall x, 0 <= x -> (bit_length x =? 0) || (bit_length x =? 32) = true <-> (x = 0 \/ 2 ^ 31 <= x < 2 ^ 32)).
  { intros x Hx. unfold bit_length. destruct (x =? 0) eqn:E; [simpl; split; [lia|reflexivity]|].
    pose proof (Z.log2_lt_pow2 x 32 ltac:(lia)). pose proof (Z.log2_le_pow2 x 31 ltac:(lia)).
    pose proof (Z.log2_nonneg x). lia. }
  specialize (BL (daddr d) Ha). specialize (BM (dmask d) Hm).
  destruct (32 <? bit_length (daddr d)).
  { split; [discriminate|]. split; [intros (a & m & H); discriminate|]. intros [H _]. apply BL in H. discriminate. }
  destruct ((bit_length (dmask d) =? 0) || (bit_length (dmask d) =? 32)); cbn [negb].
  - assert (A1 : daddr d < 2 ^ 32) by tauto. assert (M1 : dmask d = 0 \/ 2 ^ 31 <= dmask d < 2 ^ 32) by tauto.
    assert (M2 : dmask d < 2 ^ 32) by (assert (0 < 2 ^ 32) by reflexivity; lia).
    split; [|split; [tauto|intros _; eauto]].
    intros a m H. injection H as <- <-. split.
    + pose proof (quad_denotes (daddr d)) as D. rewrite Z.mod_small in D by lia. exact D.
    + destruct negate.
      * pose proof (quad_denotes (Z.lnot (dmask d))) as D.
        replace (Z.lnot (dmask d) mod 2 ^ 32) with (2 ^ 32 - 1 - dmask d) in D; [exact D|].
        apply Z.mod_unique with (-1); [lia|]. unfold Z.lnot. lia.
      * pose proof (quad_denotes (dmask d)) as D. rewrite Z.mod_small in D by lia. exact D.
  - split; [discriminate|]. split; [intros (a & m & H); discriminate|]. intros [_ H]. apply BM in H. discriminate.
Qed.

Definition half (b : bool) (d : dsm) : Prop :=
  daddr d < 2 ^ 32 /\ dmask d < 2 ^ 32 /\ Z.testbit (dmask d) 31 = true /\ Z.testbit (daddr d) 31 = b.

Lemma half_closed b : closed (half b).
Proof.
  intros c p Wc Wp (A1 & A2 & A3 & A4) (B1 & B2 & B3 & B4) H.
  destruct (is_pair_bits c p Wc Wp H) as (k & Hk & Em & Hmk & Ex & Hne & Hneg).
  assert (k <> 31) by (intros ->; rewrite A4, B4 in Hneg; destruct b; discriminate).
  destruct (join_pair_spec c p Wc Wp H) as [(J1 & J2 & _) _].
  unfold half. split; [|split; [|split]].
  - unfold join_pair. cbn [daddr]. lia.
  - unfold join_pair in *. cbn [dmask] in *.
    assert (dmask c = Z.lxor (dmask c) (Z.lxor (daddr c) (daddr p)) + 2 ^ k).
    { rewrite Ex in *. apply bit_set_add; try assumption; [apply Wc|intros i Hi|].
      - rewrite Z.lxor_spec, Z.pow2_bits_eqb by assumption. replace (k =? i) with false by lia. apply xorb_false_r.
      - rewrite Z.lxor_spec, Z.pow2_bits_eqb, Hmk, Z.eqb_refl by assumption. reflexivity. }
    assert (0 < 2 ^ k) by (apply Z.pow_pos_nonneg; lia). lia.
  - unfold join_pair. cbn [dmask]. rewrite Z.lxor_spec, Ex, Z.pow2_bits_eqb, A3 by assumption.
    replace (k =? 31) with false by lia. reflexivity.
  - unfold join_pair. cbn [daddr]. destruct (Z.min_spec (daddr c) (daddr p)) as [[_ ->]|[_ ->]]; assumption.
Qed.

Lemma summarize_renders nets b : valid_list nets ->
  (forall x, covered nets x -> fst x = V4 /\ Z.testbit (snd x) 31 = b) ->
  exists r, summarize nets = Ok r /\
    forall d negate nondsm, In d r -> exists a m, to_dotted_quad d negate nondsm = Ok (a, m).
Proof.
  intros V Hb.
  assert (Hv : Forall (fun n => nver n = V4) nets).
  { rewrite Forall_forall. intros n Hn. unfold valid_list in V. rewrite Forall_forall in V.
    pose proof (size_pos n ltac:(apply (V n Hn))).
    destruct (Hb (nver n, naddr n)) as [E _]; [|exact E]. exists n. split; [assumption|]. split; simpl; [reflexivity|lia]. }
  destruct (summarize_spec V4 nets V Hv) as (r & R1 & _ & _ & _ & W & _ & HQ).
  exists r. split; [assumption|]. specialize (HQ (half b) (half_closed b)).
  assert (F : Forall (half b) r).
  { apply HQ. intros n Vn En Hc. pose proof (size_pos n ltac:(apply Vn)) as Hs.
    assert (Hfirst : covers n (nver n, naddr n)) by (split; simpl; [reflexivity|lia]).
    pose proof (valid_end n Vn) as He. destruct Vn as (Vl & Va & Vd). rewrite En in *. cbn [width] in *.
    unfold half. cbn [daddr dsm_of_net]. split; [lia|].
    assert (Hb1 : Z.testbit (naddr n) 31 = b) by (apply (Hb (V4, naddr n)); apply Hc; exact Hfirst).
    assert (Hlen : 1 <= nlen n).
    { destruct (Z_le_gt_dec 1 (nlen n)); [assumption|exfalso].
      assert (E0 : nlen n = 0) by lia. unfold size in *. rewrite En, E0 in *. cbn [width] in *. change (32 - 0) with 32 in *.
      assert (naddr n = 0) by (destruct Vd as [q Hq]; nia).
      assert (C : covers n (V4, 2 ^ 31)).
      { split; [assumption|]. cbn [snd]. unfold size. rewrite En, E0. change (width V4 - 0) with 32.
        assert (2 ^ 31 < 2 ^ 32) by reflexivity. assert (0 < 2 ^ 31) by reflexivity. lia. }
      pose proof (proj2 (Hb _ (Hc _ C))) as Hb2. cbn [snd] in Hb2. rewrite Z.pow2_bits_true in Hb2 by lia.
      rewrite H in Hb1. rewrite Z.bits_0 in Hb1. congruence. }
    split; [|split; [|assumption]].
    - unfold dsm_of_net. cbn [dmask]. rewrite En. cbn [width]. rewrite Z.shiftl_mul_pow2 by lia.
      rewrite Z.shiftl_mul_pow2 by lia. rewrite Z.mul_1_l.
      assert (2 ^ 32 = 2 ^ nlen n * 2 ^ (32 - nlen n)) by (rewrite <- Z.pow_add_r by lia; f_equal; lia).
      assert (0 < 2 ^ (32 - nlen n)) by (apply Z.pow_pos_nonneg; lia). nia.
    - rewrite dsm_mask_bit; rewrite ?En; cbn [width]; lia. }
  intros d negate nondsm Hd. rewrite Forall_forall in F, W.
  destruct (F d Hd) as (F1 & F2 & F3 & F4). destruct (W d Hd) as (W1 & W2 & _).
  assert (F5 : 2 ^ 31 <= dmask d).
  { destruct (Z_le_gt_dec (2 ^ 31) (dmask d)); [assumption|exfalso].
    assert (0 < 2 ^ 31) by reflexivity.
    destruct (Z.eq_dec (dmask d) 0) as [E|]; [rewrite E, Z.bits_0 in F3; discriminate|].
    rewrite Z.bits_above_log2 in F3; [discriminate|lia|]. apply Z.log2_lt_pow2; lia. }
  destruct (proj2 (proj2 (to_dotted_quad_spec d negate W1 W2))) as (a & m & E); [split; [assumption|right; lia]|].
  unfold to_dotted_quad in *. destruct (32 <? bit_length (Z.abs (daddr d))); [discriminate|].
  destruct (negb _); [discriminate|]. destruct nondsm; eauto.
Qed.

(** ** Forms used by PropsSum.v *)
Lemma summarize_comments v nets r : valid_list nets -> Forall (fun n => nver n = v) nets ->
  summarize nets = Ok r ->
  forall n, In n nets -> exists d, In d r /\
    (forall x, covers n (v, x) -> dsm_match d x) /\ contains (dtext d) (ntext n).
Proof.
  intros V Hv Hr. destruct (summarize_spec v nets V Hv) as (r' & R1 & _ & R2 & _).
  assert (r' = r) by congruence. subst. assumption.
Qed.
Lemma summarize_shape v nets r c : valid_list nets -> Forall (fun n => nver n = v) nets ->
  summarize nets = Ok r -> collapse_addr_list nets [] = Ok c ->
  StronglySorted (fun a b => daddr a <= daddr b) r /\ (List.length r <= List.length c)%nat.
Proof.
  intros V Hv Hr Hc. destruct (summarize_spec v nets V Hv) as (r' & R1 & _ & _ & R3 & _ & R5 & _).
  assert (r' = r) by congruence. subst. auto.
Qed.
