(** Proofs about CollapseAddrList (nacaddr.py). *)
From Coq Require Import Lia ZifyBool ZifyNat Permutation Sorted.
From Verif Require Import SpecIP IPFacts BaseFacts.
Local Open Scope Z_scope.

(** ** Order keys *)
Lemma key_leb_spec a b : valid a -> valid b -> key_leb a b = true <-> key_le a b.
Proof.
  intros Ha Hb. unfold key_leb, key_le.
  destruct (ver_num (nver a) =? ver_num (nver b)) eqn:Ev.
  - assert (Hv : nver a = nver b) by (apply ver_num_inj; lia).
    destruct (naddr a =? naddr b) eqn:En.
    + rewrite Z.leb_le, netmask_le by assumption. split.
      * intros H. right. split; [assumption|right; lia].
      * intros [H|[_ [H|[_ H]]]]; lia.
    + rewrite Z.ltb_lt. split.
      * intros H. right. split; [assumption|left; lia].
      * intros [H|[_ [H|[H _]]]]; lia.
  - rewrite Z.ltb_lt. split.
    + intros H. left; assumption.
    + intros [H|[Hv _]]; [assumption|rewrite Hv in Ev; lia].
Qed.

Lemma key_ltb_spec a b : valid a -> valid b -> key_ltb a b = true <-> ~ key_le b a.
Proof.
  intros Ha Hb. unfold key_ltb, key_le.
  destruct (ver_num (nver a) =? ver_num (nver b)) eqn:Ev.
  - assert (Hv : nver a = nver b) by (apply ver_num_inj; lia).
    destruct (naddr a =? naddr b) eqn:En.
    + rewrite Z.ltb_lt. pose proof (netmask_le b a Hb Ha (eq_sym Hv)). split.
      * intros H1 [H2|[_ [H2|[_ H2]]]]; try lia.
      * intros H1. destruct (Z_lt_ge_dec (netmask a) (netmask b)); [assumption|exfalso].
        apply H1. right. split; [congruence|right; lia].
    + rewrite Z.ltb_lt. split.
      * intros H1 [H2|[_ [H2|[H2 _]]]]; lia.
      * intros H1. destruct (Z_lt_ge_dec (naddr a) (naddr b)); [assumption|exfalso].
        apply H1. right. split; [congruence|left; lia].
  - rewrite Z.ltb_lt. split.
    + intros H1 [H2|[Hv _]]; [lia|rewrite Hv in Ev; lia].
    + intros H. destruct (Z_lt_ge_dec (ver_num (nver a)) (ver_num (nver b))); [assumption|exfalso].
      apply H. left. lia.
Qed.

Lemma key_le_trans a b c : key_le a b -> key_le b c -> key_le a c.
Proof.
  unfold key_le. intros [H1|[E1 H1]] [H2|[E2 H2]].
  - left; lia.
  - left; rewrite <- E2; lia.
  - left; rewrite E1; lia.
  - right. split; [congruence|lia].
Qed.
Lemma key_le_total a b : key_le a b \/ key_le b a.
Proof.
  unfold key_le.
  destruct (Z.lt_trichotomy (ver_num (nver a)) (ver_num (nver b))) as [H|[H|H]]; [auto| |auto].
  apply ver_num_inj in H.
  assert (nver b = nver a) by congruence.
  destruct (Z.lt_trichotomy (naddr a) (naddr b)) as [H1|[H1|H1]].
  - left; right; auto.
  - destruct (Z_le_gt_dec (nlen a) (nlen b)).
    + left; right; split; [assumption|right; lia].
    + right; right; split; [assumption|right; lia].
  - right; right; split; [assumption|left; lia].
Qed.
Lemma key_le_refl a : key_le a a.
Proof. right. split; [reflexivity|right; lia]. Qed.

Lemma sort_valid l : valid_list l -> valid_list (py_sorted key_leb l).
Proof.
  unfold valid_list. rewrite !Forall_forall. intros H n Hn. apply H.
  apply (proj1 (py_sorted_in key_leb l n)). exact Hn.
Qed.

Lemma sort_sorted l : valid_list l -> StronglySorted key_le (py_sorted key_leb l).
Proof.
  intros Hl.
  assert (H : StronglySorted (fun a b => key_leb a b = true) (py_sorted key_leb l)).
  { apply py_sorted_sorted with (P := valid); [| |exact Hl].
    - intros a b Ha Hb. rewrite !key_leb_spec by assumption. apply key_le_total.
    - intros a b c Ha Hb Hc. rewrite !key_leb_spec by assumption. apply key_le_trans. }
  pose proof (sort_valid l Hl) as Hv. clear Hl. revert Hv.
  generalize dependent (py_sorted key_leb l). intros l' H.
  induction H as [|a l'' Hs IH Ha]; intros Hv; [constructor|].
  inversion Hv as [|? ? Va Vl]; subst.
  constructor; [apply IH; assumption|].
  rewrite Forall_forall in *. intros b Hb. apply key_leb_spec; auto.
Qed.

(** ** Coverage *)
Lemma covered_nil x : covered [] x <-> False.
Proof. split; [intros [n [[] _]]|tauto]. Qed.
Lemma covered_cons n l x : covered (n :: l) x <-> covers n x \/ covered l x.
Proof.
  unfold covered. simpl. split.
  - intros [m [[->|H] Hc]]; [left|right]; eauto.
  - intros [H|[m [H Hc]]]; eauto.
Qed.
Lemma covered_app l l' x : covered (l ++ l') x <-> covered l x \/ covered l' x.
Proof.
  unfold covered. split.
  - intros [n [H Hc]]. apply in_app_or in H. destruct H; eauto.
  - intros [[n [H Hc]]|[n [H Hc]]]; exists n; split; auto; apply in_or_app; auto.
Qed.
Lemma covered_perm l l' x : Permutation l l' -> covered l x <-> covered l' x.
Proof.
  intros H. unfold covered. split; intros [n [Hn Hc]]; exists n; split; auto;
    [|apply Permutation_sym in H]; eapply Permutation_in; eauto.
Qed.
Lemma covered_rev l x : covered (rev l) x <-> covered l x.
Proof. apply covered_perm. apply Permutation_sym, Permutation_rev. Qed.
Lemma covered_sort l x : covered (py_sorted key_leb l) x <-> covered l x.
Proof. apply covered_perm, py_sorted_perm. Qed.
Lemma covered_in_eq l l' : (forall n, In n l <-> In n l') -> forall x, covered l x <-> covered l' x.
Proof. intros H x. unfold covered. split; intros [n [Hn Hc]]; exists n; split; auto; apply H; auto. Qed.

Lemma add_comment_valid n c : valid n -> valid (add_comment n c).
Proof. apply prefix_valid. reflexivity. Qed.
Lemma add_comment_covers n c x : covers (add_comment n c) x <-> covers n x.
Proof. apply prefix_covers. reflexivity. Qed.
Lemma mergeable_add_comment p c a : mergeable (add_comment p c) a = mergeable p a.
Proof. reflexivity. Qed.

Lemma mergeable_valid a b : valid a -> valid b -> mergeable a b = true -> valid (supernet a).
Proof.
  intros Ha Hb Hm. apply mergeable_spec in Hm; try assumption.
  apply supernet_spec; [assumption|tauto].
Qed.

Lemma push_coverage cs : forall st a st',
  valid a -> valid_list st -> push cs a st = Ok st' ->
  valid_list st' /\ forall x, covered st' x <-> covers a x \/ covered st x.
Proof.
  induction st as [|prev st IH]; simpl; intros a st' Ha Hst Hp.
  - injection Hp as <-. split; [constructor; [assumption|constructor]|].
    intros x. rewrite covered_cons. reflexivity.
  - inversion Hst as [|? ? Hprev Hst']; subst.
    apply bind_ok in Hp. destruct Hp as [safe [_ Hp]].
    assert (Happ : forall st'', Ok (a :: prev :: st) = Ok st'' ->
      valid_list st'' /\ forall x, covered st'' x <-> covers a x \/ covered (prev :: st) x).
    { intros st'' E. injection E as <-. split.
      - constructor; assumption.
      - intros x. rewrite !covered_cons. tauto. }
    destruct safe; cbn [negb] in Hp; [|apply Happ; exact Hp].
    destruct (supernet_of prev a) eqn:Es.
    { injection Hp as <-. unfold supernet_of in Es. apply subnet_of_spec in Es; try assumption.
      split.
      - constructor; [apply add_comment_valid|]; assumption.
      - intros x. rewrite !covered_cons, add_comment_covers. split; [tauto|].
        intros [H|H]; [left; apply Es; assumption|assumption]. }
    destruct (mergeable prev a) eqn:Em; [|apply Happ; exact Hp].
    rewrite <- (mergeable_add_comment prev (ntext a)) in Em.
    pose proof (add_comment_valid prev (ntext a) Hprev) as Hpv.
    destruct (IH _ _ (mergeable_valid _ _ Hpv Ha Em) Hst' Hp) as [H1 H2].
    split; [assumption|]. intros x. rewrite H2, covered_cons.
    rewrite (mergeable_supernet _ _ Hpv Ha Em), add_comment_covers. tauto.
Qed.

Lemma push_all_coverage cs : forall l st st',
  valid_list l -> valid_list st -> push_all cs l st = Ok st' ->
  valid_list st' /\ forall x, covered st' x <-> covered l x \/ covered st x.
Proof.
  induction l as [|a l IH]; simpl; intros st st' Hl Hst Hp.
  - injection Hp as <-. split; [assumption|]. intros x. rewrite covered_nil. tauto.
  - inversion Hl; subst. apply bind_ok in Hp. destruct Hp as [st1 [Hp1 Hp2]].
    destruct (push_coverage _ _ _ _ H1 Hst Hp1) as [V1 C1].
    destruct (IH _ _ H2 V1 Hp2) as [V2 C2]. split; [assumption|].
    intros x. rewrite C2, C1, covered_cons. tauto.
Qed.

Lemma collapse_coverage l cs r : valid_list l -> collapse_addr_list l cs = Ok r ->
  valid_list r /\ forall x, covered r x <-> covered l x.
Proof.
  unfold collapse_addr_list, collapse_internal. intros Hl H.
  apply bind_ok in H. destruct H as [st [Hp Hr]]. injection Hr as <-.
  destruct (push_all_coverage _ _ _ _ (sort_valid l Hl) (Forall_nil _) Hp) as [V C].
  split; [apply Forall_rev; exact V|].
  intros x. rewrite covered_rev, C, covered_sort, covered_nil. tauto.
Qed.

(** ** Canonical form without exclusions *)
Inductive stack_ok : list net -> Prop :=
| so_nil : stack_ok []
| so_cons t s : Forall (fun p => before p t) s -> Forall (fun p => ~ siblings p t) s ->
    stack_ok s -> stack_ok (t :: s).

Lemma before_trans a b c : valid b -> before a b -> before b c -> before a c.
Proof.
  intros Hb. pose proof (size_pos b ltac:(apply Hb)). unfold before.
  intros [H1|[E1 H1]] [H2|[E2 H2]].
  - left; lia.
  - left. rewrite <- E2. lia.
  - left. rewrite E1. lia.
  - right. split; [congruence|lia].
Qed.
Lemma before_irrefl a : valid a -> ~ before a a.
Proof. intros Ha [H|[_ H]]; [lia|]. pose proof (size_pos a ltac:(apply Ha)). lia. Qed.

Lemma before_disjoint a b : before a b -> disjoint a b.
Proof.
  intros [H|[E H]] x [V1 H1] [V2 H2].
  - rewrite V1, V2 in H. lia.
  - lia.
Qed.

Lemma before_key_le a b : valid a -> before a b -> key_le a b.
Proof.
  intros Ha [H|[E H]]; [left; assumption|right]. split; [assumption|].
  pose proof (size_pos a ltac:(apply Ha)). left; lia.
Qed.

Lemma key_le_before a b : valid a -> valid b -> key_le a b -> supernet_of a b = false -> before a b.
Proof.
  intros Ha Hb [H|[E H]] Hs; [left; assumption|]. right. split; [assumption|].
  destruct (Z_le_gt_dec (naddr a + size a) (naddr b)) as [|Hgt]; [assumption|exfalso].
  assert (Hin : supernet_of a b = true); [|congruence].
  unfold supernet_of. apply subnet_of_spec; try assumption.
  pose proof (size_pos a ltac:(apply Ha)). pose proof (size_pos b ltac:(apply Hb)).
  assert (Cb : covers b (nver b, naddr b)) by (split; simpl; [reflexivity|lia]).
  assert (Ca : covers a (nver b, naddr b)) by (split; simpl; [assumption|lia]).
  destruct (Z_le_gt_dec (nlen a) (nlen b)) as [Hl|Hl].
  - eapply nested; eauto.
  - assert (Hsub : subset a b) by (eapply nested; eauto; lia).
    apply subset_len in Hsub; try assumption. lia.
Qed.

Lemma siblings_before a b : valid a -> siblings a b -> before a b -> naddr b = naddr a + size a.
Proof.
  intros Ha (Ev & El & Hp & base & Hd & [[H1 H2]|[H1 H2]]) [Hb|[_ Hb]];
    try (rewrite Ev in Hb; lia); try lia.
  pose proof (size_pos a ltac:(apply Ha)). lia.
Qed.

Lemma siblings_mergeable a b : valid a -> valid b -> siblings a b -> before a b -> mergeable a b = true.
Proof.
  intros Ha Hb Hs Hbef. pose proof (siblings_before a b Ha Hs Hbef) as Hadj.
  destruct Hs as (Ev & El & Hp & base & Hd & [[H1 H2]|[H1 H2]]).
  - apply mergeable_spec; try assumption. repeat split; try assumption. congruence.
  - pose proof (size_pos a ltac:(apply Ha)). lia.
Qed.

Definition top_le (st : list net) (a : net) : Prop :=
  match st with [] => True | p :: _ => key_le p a end.

Lemma safe_to_merge_nil a t : safe_to_merge a t [] = Ok true.
Proof. reflexivity. Qed.

Lemma stack_ok_comment p c s : stack_ok (p :: s) -> stack_ok (add_comment p c :: s).
Proof. intros H. inversion H; subst. constructor; assumption. Qed.

Lemma push_canon : forall st a,
  valid a -> valid_list st -> stack_ok st -> top_le st a ->
  exists t s, push [] a st = Ok (t :: s) /\ stack_ok (t :: s) /\ key_le t a.
Proof.
  induction st as [|prev st IH]; intros a Ha Hst Hok Hle; cbn [push].
  - exists a, []. split; [reflexivity|]. split; [repeat constructor|apply key_le_refl].
  - inversion Hst as [|? ? Hprev Hst']; subst. inversion Hok as [|? ? Hb Hns Hok']; subst.
    cbn [checks_for filter]. rewrite safe_to_merge_nil. cbn [bind negb].
    simpl in Hle.
    destruct (supernet_of prev a) eqn:Es.
    { exists (add_comment prev (ntext a)), st. split; [reflexivity|].
      split; [apply stack_ok_comment; assumption|exact Hle]. }
    pose proof (key_le_before _ _ Hprev Ha Hle Es) as Hbef.
    destruct (mergeable prev a) eqn:Em.
    + set (p' := add_comment prev (ntext a)) in *.
      assert (Hpv : valid p') by (apply add_comment_valid; assumption).
      assert (Em' : mergeable p' a = true) by exact Em.
      pose proof Em' as Em2. apply mergeable_spec in Em2; try assumption.
      destruct Em2 as (E1 & E2 & E3 & E4 & E5).
      destruct (supernet_spec p' Hpv E3) as (S1 & S2 & S3 & S4 & S5).
      pose proof (size_pos p' ltac:(apply Hpv)) as Psz.
      apply Z.mod_divide in E5; [|lia].
      destruct (IH (supernet p')) as (t & s & H1 & H2 & H3); try assumption.
      { destruct st as [|q st]; simpl; [exact I|].
        inversion Hb as [|? ? Hq _]; subst. inversion Hst'; subst.
        apply before_key_le; [assumption|].
        destruct Hq as [Hq|[Hq1 Hq2]]; [left|right].
        - rewrite S1. exact Hq.
        - rewrite S1. split; [exact Hq1|]. rewrite S3, E5.
          unfold p'. cbn [naddr add_comment]. lia. }
      exists t, s. split; [assumption|]. split; [assumption|].
      apply key_le_trans with (supernet p'); [assumption|].
      right. rewrite S1. split; [exact E1|]. left. rewrite S3, E5. lia.
    + exists a, (prev :: st). split; [reflexivity|]. split; [|apply key_le_refl].
      constructor; [| |assumption].
      * constructor; [assumption|]. rewrite Forall_forall in *.
        intros q Hq. apply before_trans with prev; auto.
      * constructor.
        -- intros Hs. apply siblings_mergeable in Hs; try assumption. congruence.
        -- rewrite Forall_forall in *. intros q Hq Hs.
           assert (Vq : valid q) by (apply Hst'; assumption).
           assert (Bqa : before q a) by (apply before_trans with prev; auto).
           pose proof (siblings_before _ _ Vq Hs Bqa) as Hadj.
           destruct Hs as (Ev & _). pose proof (Hb q Hq) as Bqp.
           pose proof (size_pos prev ltac:(apply Hprev)).
           destruct Bqp as [Bqp|[Eqp Bqp]], Hbef as [Hbef|[Epa Hbef]]; try lia.
           ++ rewrite Ev in Bqp. lia.
           ++ rewrite Ev, Epa in Bqp. lia.
           ++ rewrite <- Eqp, Ev in Hbef. lia.
Qed.

Lemma push_all_canon : forall l st,
  valid_list l -> StronglySorted key_le l -> valid_list st -> stack_ok st ->
  (forall a, In a l -> top_le st a) ->
  exists st', push_all [] l st = Ok st' /\ stack_ok st'.
Proof.
  induction l as [|a l IH]; intros st Hl Hs Hst Hok Htop; cbn [push_all].
  - eauto.
  - inversion Hl; subst. inversion Hs as [|? ? Hs' Ha]; subst.
    destruct (push_canon st a) as (t & s & H3 & H4 & H5); try assumption.
    { apply Htop. left; reflexivity. }
    rewrite H3. cbn [bind].
    apply IH; try assumption.
    + apply push_coverage in H3; tauto.
    + intros b Hb. simpl. apply key_le_trans with a; [assumption|].
      rewrite Forall_forall in Ha. auto.
Qed.

Lemma siblings_sym a b : siblings a b -> siblings b a.
Proof.
  intros (Ev & El & Hp & base & Hd & H).
  assert (Hs : size b = size a) by (unfold size; rewrite Ev, El; reflexivity).
  repeat split; try congruence; try lia. exists base. rewrite Hs. tauto.
Qed.
Lemma siblings_irrefl a : valid a -> ~ siblings a a.
Proof.
  intros Ha (_ & _ & _ & base & _ & H). pose proof (size_pos a ltac:(apply Ha)). lia.
Qed.

Lemma StronglySorted_snoc {A} (R : A -> A -> Prop) l a :
  StronglySorted R l -> Forall (fun p => R p a) l -> StronglySorted R (l ++ [a]).
Proof.
  intros Hs Hf. induction Hs as [|b l Hs IH Hb]; simpl; [repeat constructor|].
  inversion Hf; subst. constructor; [auto|].
  apply Forall_app. split; [assumption|]. constructor; [assumption|constructor].
Qed.

Lemma stack_ok_canonical st : valid_list st -> stack_ok st -> canonical (rev st).
Proof.
  intros Hv Hs. split.
  - induction Hs as [|t s Hb Hn Hs IH]; simpl; [constructor|].
    inversion Hv; subst. apply StronglySorted_snoc; [auto|].
    rewrite Forall_forall in *. intros p Hp. apply Hb. apply in_rev. exact Hp.
  - assert (H : forall a b, In a st -> In b st -> ~ siblings a b).
    { induction Hs as [|t s Hb Hn Hs IH]; [intros a b []|].
      inversion Hv as [|? ? Vt Vs]; subst. rewrite Forall_forall in Hn.
      intros a b [<-|Ha] [<-|Hb'] Hsib.
      - exact (siblings_irrefl t Vt Hsib).
      - apply (Hn b Hb'). apply siblings_sym. exact Hsib.
      - apply (Hn a Ha). exact Hsib.
      - exact (IH Vs a b Ha Hb' Hsib). }
    intros a b Ha Hb. apply H; apply in_rev; assumption.
Qed.

Lemma collapse_total_canonical l : valid_list l ->
  exists r, collapse_addr_list l [] = Ok r /\ valid_list r /\ canonical r.
Proof.
  intros Hl. unfold collapse_addr_list, collapse_internal. cbn [filter].
  destruct (push_all_canon (py_sorted key_leb l) []) as (st & H1 & H2).
  - apply sort_valid; assumption.
  - apply sort_sorted; assumption.
  - constructor.
  - constructor.
  - intros a _. exact I.
  - rewrite H1. cbn [bind]. exists (rev st).
    destruct (push_all_coverage _ _ _ _ (sort_valid l Hl) (Forall_nil _) H1) as [V _].
    split; [reflexivity|]. split; [apply Forall_rev; exact V|].
    apply stack_ok_canonical; assumption.
Qed.

(** *** Uniqueness *)
Lemma block_covered L : valid_list L -> (forall a b, In a L -> In b L -> ~ siblings a b) ->
  forall (k : nat) B, valid B -> width (nver B) - nlen B = Z.of_nat k ->
  (forall x, covers B x -> covered L x) -> exists n, In n L /\ subset B n.
Proof.
  intros HL Hns. unfold valid_list in HL. rewrite Forall_forall in HL.
  induction k as [|k IH]; intros B HB Hk Hcov.
  - assert (Hsz : size B = 1) by (unfold size; rewrite Hk; reflexivity).
    destruct (Hcov (nver B, naddr B)) as [n [Hn Hc]]; [split; simpl; [reflexivity|lia]|].
    exists n. split; [assumption|]. intros [v x] [H1 H2]. simpl in *.
    assert (x = naddr B) by lia. subst. exact Hc.
  - set (B0 := plain (nver B) (naddr B) (nlen B + 1)).
    pose proof HB as (Hl & Ha & Hd).
    assert (Hsz : size B = 2 * size B0).
    { unfold size, B0. cbn [nver nlen plain].
      replace (width (nver B) - nlen B) with (1 + (width (nver B) - (nlen B + 1))) by lia.
      rewrite Z.pow_add_r by lia. reflexivity. }
    set (B1 := plain (nver B) (naddr B + size B0) (nlen B + 1)).
    assert (Hsz1 : size B1 = size B0) by reflexivity.
    assert (Hpos : 0 < size B0) by (apply size_pos; cbn; lia).
    pose proof (valid_end B HB) as Hend.
    assert (V0 : valid B0).
    { repeat split; cbn [nver nlen naddr B0 plain]; try lia.
      rewrite Hsz in Hd. destruct Hd as [q Hq]. exists (2 * q). fold B0. lia. }
    assert (V1 : valid B1).
    { repeat split; cbn [nver nlen naddr B1 plain]; try lia.
      fold B1. rewrite Hsz1. rewrite Hsz in Hd. destruct Hd as [q Hq]. exists (2 * q + 1). lia. }
    assert (C0 : forall x, covers B0 x -> covers B x).
    { intros x [Hv Hx]. split; [exact Hv|]. cbn [naddr nver B0 plain] in *. lia. }
    assert (C1 : forall x, covers B1 x -> covers B x).
    { intros x [Hv Hx]. split; [exact Hv|]. cbn [naddr nver B1 plain] in *. rewrite Hsz1 in Hx. lia. }
    destruct (IH B0 V0) as [n0 [In0 S0]]; [cbn; lia|intros x Hx; apply Hcov, C0, Hx|].
    destruct (IH B1 V1) as [n1 [In1 S1]]; [cbn; lia|intros x Hx; apply Hcov, C1, Hx|].
    destruct (Z_le_gt_dec (nlen n0) (nlen B)) as [Hle|Hgt].
    { exists n0. split; [assumption|].
      assert (P0 : covers B0 (nver B, naddr B)) by (split; simpl; [reflexivity|lia]).
      apply nested with (x := (nver B, naddr B)); auto. }
    destruct (Z_le_gt_dec (nlen n1) (nlen B)) as [Hle1|Hgt1].
    { exists n1. split; [assumption|].
      assert (P1 : covers B1 (nver B, naddr B + size B0)) by (split; simpl; [reflexivity|lia]).
      apply nested with (x := (nver B, naddr B + size B0)); auto. }
    exfalso. apply (Hns n0 n1 In0 In1).
    assert (E0 : prefix_of n0 = prefix_of B0).
    { apply subset_antisym; auto. apply nested with (x := (nver B, naddr B)); auto.
      all: try (apply S0); try (split; simpl; [reflexivity|lia]). cbn; lia. }
    assert (E1 : prefix_of n1 = prefix_of B1).
    { apply subset_antisym; auto. apply nested with (x := (nver B, naddr B + size B0)); auto.
      all: try (apply S1); try (split; simpl; [reflexivity|lia]). cbn; lia. }
    unfold prefix_of in E0, E1. injection E0; intros L0 A0 W0. injection E1; intros L1 A1 W1.
    assert (Hsn : size n0 = size B0) by (unfold size; rewrite W0, L0; reflexivity).
    unfold siblings. rewrite Hsn. repeat split; try congruence.
    + rewrite L0. cbn. lia.
    + exists (naddr B). split; [rewrite <- Hsz; exact Hd|]. left. split.
      * rewrite A0. reflexivity.
      * rewrite A1. reflexivity.
Qed.

Lemma sorted_before_disjoint L : StronglySorted before L ->
  forall a b x, In a L -> In b L -> covers a x -> covers b x -> a = b.
Proof.
  induction 1 as [|c l Hs IH Hc]; intros a b x Ha Hb Ca Cb; [destruct Ha|].
  rewrite Forall_forall in Hc.
  destruct Ha as [<-|Ha], Hb as [<-|Hb].
  - reflexivity.
  - exfalso. eapply before_disjoint; eauto.
  - exfalso. eapply before_disjoint; eauto.
  - eapply IH; eauto.
Qed.

Lemma canonical_match L1 L2 : valid_list L1 -> valid_list L2 -> canonical L1 -> canonical L2 ->
  (forall x, covered L1 x <-> covered L2 x) ->
  forall n, In n L1 -> exists m, In m L2 /\ prefix_of m = prefix_of n.
Proof.
  intros V1 V2 [S1 N1] [S2 N2] Hc n Hn.
  pose proof V1 as V1'. pose proof V2 as V2'. unfold valid_list in V1', V2'.
  rewrite Forall_forall in V1', V2'.
  assert (Wn : forall m, valid m -> exists k, width (nver m) - nlen m = Z.of_nat k).
  { intros m (Hl & _). exists (Z.to_nat (width (nver m) - nlen m)). lia. }
  destruct (Wn n (V1' n Hn)) as [k Hk].
  destruct (block_covered L2 V2 N2 k n (V1' n Hn) Hk) as [m [Hm Hnm]].
  { intros x Hx. apply Hc. exists n; auto. }
  destruct (Wn m (V2' m Hm)) as [k' Hk'].
  destruct (block_covered L1 V1 N1 k' m (V2' m Hm) Hk') as [n' [Hn' Hmn]].
  { intros x Hx. apply Hc. exists m; auto. }
  pose proof (size_pos n ltac:(apply V1'; assumption)) as P.
  assert (Cn : covers n (nver n, naddr n)) by (split; simpl; [reflexivity|lia]).
  assert (n = n').
  { eapply sorted_before_disjoint with (x := (nver n, naddr n)); [exact S1|exact Hn|exact Hn'|exact Cn|].
    apply Hmn, Hnm, Cn. }
  subst n'. exists m. split; [assumption|]. apply subset_antisym; auto.
Qed.

Lemma canonical_unique : forall L1 L2, valid_list L1 -> valid_list L2 ->
  StronglySorted before L1 -> StronglySorted before L2 ->
  (forall n, In n L1 -> exists m, In m L2 /\ prefix_of m = prefix_of n) ->
  (forall n, In n L2 -> exists m, In m L1 /\ prefix_of m = prefix_of n) ->
  map prefix_of L1 = map prefix_of L2.
Proof.
  assert (Hcong : forall a b c d, prefix_of a = prefix_of b -> prefix_of c = prefix_of d ->
            before a c -> before b d).
  { unfold prefix_of, before, size. intros a b c d H1 H2.
    injection H1; intros -> -> ->. injection H2; intros _ -> ->. auto. }
  induction L1 as [|a L1 IH]; intros L2 V1 V2 S1 S2 H12 H21.
  - destruct L2 as [|b L2]; [reflexivity|].
    destruct (H21 b (or_introl eq_refl)) as [m [[] _]].
  - destruct L2 as [|b L2].
    { destruct (H12 a (or_introl eq_refl)) as [m [[] _]]. }
    inversion S1 as [|? ? S1' Fa]; subst. inversion S2 as [|? ? S2' Fb]; subst.
    inversion V1 as [|? ? Va V1']; subst. inversion V2 as [|? ? Vb V2']; subst.
    rewrite Forall_forall in Fa, Fb.
    assert (E : prefix_of a = prefix_of b).
    { destruct (H12 a (or_introl eq_refl)) as [m [[<-|Hm] Em]]; [symmetry; assumption|].
      destruct (H21 b (or_introl eq_refl)) as [n [[<-|Hn] En]]; [assumption|].
      exfalso. apply (before_irrefl a Va). apply before_trans with b; [assumption| |].
      - eapply Hcong; [reflexivity|exact En|apply Fa; exact Hn].
      - eapply Hcong; [reflexivity|exact Em|apply Fb; exact Hm]. }
    simpl. f_equal; [assumption|]. apply IH; try assumption.
    + intros n Hn. destruct (H12 n (or_intror Hn)) as [m [[<-|Hm] Em]]; [|eauto].
      exfalso. apply (before_irrefl a Va).
      eapply Hcong; [reflexivity| |apply Fa; exact Hn]. congruence.
    + intros n Hn. destruct (H21 n (or_intror Hn)) as [m [[<-|Hm] Em]]; [|eauto].
      exfalso. apply (before_irrefl b Vb).
      eapply Hcong; [reflexivity| |apply Fb; exact Hn]. congruence.
Qed.

Lemma canonical_eq L1 L2 : valid_list L1 -> valid_list L2 -> canonical L1 -> canonical L2 ->
  (forall x, covered L1 x <-> covered L2 x) -> map prefix_of L1 = map prefix_of L2.
Proof.
  intros V1 V2 C1 C2 Hc. apply canonical_unique; try assumption; try apply C1; try apply C2.
  - apply canonical_match; assumption.
  - apply canonical_match; try assumption. intros x. symmetry. apply Hc.
Qed.

Lemma collapse_canonical_eq l1 l2 r1 r2 : valid_list l1 -> valid_list l2 ->
  collapse_addr_list l1 [] = Ok r1 -> collapse_addr_list l2 [] = Ok r2 ->
  (forall x, covered l1 x <-> covered l2 x) ->
  map prefix_of r1 = map prefix_of r2.
Proof.
  intros V1 V2 H1 H2 Hc.
  destruct (collapse_total_canonical l1 V1) as (r1' & E1 & W1 & C1).
  destruct (collapse_total_canonical l2 V2) as (r2' & E2 & W2 & C2).
  assert (r1' = r1) by congruence. assert (r2' = r2) by congruence. subst.
  apply canonical_eq; try assumption. intros x.
  rewrite (proj2 (collapse_coverage _ _ _ V1 H1)), (proj2 (collapse_coverage _ _ _ V2 H2)). apply Hc.
Qed.
