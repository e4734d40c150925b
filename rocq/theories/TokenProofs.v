(** CollapseAddrListPreserveTokens and IsSuperNet. *)
From Coq Require Import Lia ZifyBool ZifyNat Permutation Sorted.
From Verif Require Import SpecIP IPFacts BaseFacts CollapseProofs CollapseMore.
Local Open Scope Z_scope.

Lemma is_super_net_spec sup sub : valid_list sup -> valid_list sub ->
  is_super_net sup sub = true <->
  forall n, In n sub -> exists m, In m sup /\ subset n m.
Proof.
  intros Vs Vb. unfold valid_list in *. rewrite Forall_forall in *.
  unfold is_super_net, in_net_list. rewrite forallb_forall. split; intros H n Hn.
  - specialize (H n Hn). apply existsb_exists in H. destruct H as [m [Hm Hs]].
    apply subnet_of_spec in Hs; eauto.
  - destruct (H n Hn) as [m [Hm Hs]]. apply existsb_exists. exists m. split; [assumption|].
    apply subnet_of_spec; auto.
Qed.

Lemma is_super_net_covered sup sub : valid_list sup -> valid_list sub ->
  is_super_net sup sub = true -> forall x, covered sub x -> covered sup x.
Proof.
  intros Vs Vb H x [n [Hn Hx]]. destruct (proj1 (is_super_net_spec sup sub Vs Vb) H n Hn) as [m [Hm Hs]].
  exists m. split; auto.
Qed.

(** Completeness on canonical lists: a list whose addresses are all covered by a
    canonical list is recognised. *)
Lemma is_super_net_complete sup sub : valid_list sup -> valid_list sub -> canonical sup ->
  (forall x, covered sub x -> covered sup x) -> is_super_net sup sub = true.
Proof.
  intros Vs Vb [_ Hns] H. apply is_super_net_spec; try assumption.
  intros n Hn. assert (Vn : valid n). { unfold valid_list in Vb. rewrite Forall_forall in Vb. auto. }
  eapply block_covered with (k := Z.to_nat (width (nver n) - nlen n)); eauto.
  - destruct Vn as (Hl & _). lia.
  - intros x Hx. apply H. exists n; auto.
Qed.

Lemma concat_group_runs {A} (key : A -> string) l : concat (group_runs key l) = l.
Proof.
  induction l as [|x l IH]; cbn [group_runs]; [reflexivity|].
  destruct (group_runs key l) as [|[|y g] gs]; simpl in *; [congruence|congruence|].
  destruct (String.eqb (key x) (key y)); simpl; congruence.
Qed.

Lemma group_runs_same {A} (key : A -> string) l : forall g, In g (group_runs key l) ->
  forall a b, In a g -> In b g -> key a = key b.
Proof.
  induction l as [|x l IH]; cbn [group_runs]; intros g Hg a b Ha Hb; [destruct Hg|].
  destruct (group_runs key l) as [|[|y g'] gs] eqn:E.
  - destruct Hg as [<-|[]]. destruct Ha as [<-|[]], Hb as [<-|[]]. reflexivity.
  - destruct Hg as [<-|Hg]; [|eapply IH; eauto].
    destruct Ha as [<-|[]], Hb as [<-|[]]. reflexivity.
  - destruct (String.eqb (key x) (key y)) eqn:Ek.
    + apply String.eqb_eq in Ek. destruct Hg as [<-|Hg].
      * assert (H : forall c, In c (x :: y :: g') -> key c = key y).
        { intros c [<-|Hc]; [assumption|]. eapply IH; [left; reflexivity|exact Hc|left; reflexivity]. }
        rewrite (H a Ha), (H b Hb). reflexivity.
      * eapply IH; [right; exact Hg|exact Ha|exact Hb].
    + destruct Hg as [<-|Hg].
      * destruct Ha as [<-|[]], Hb as [<-|[]]. reflexivity.
      * eapply IH; eauto.
Qed.

Lemma mapM_in {A B} (f : A -> res B) : forall l r, mapM f l = Ok r ->
  (forall b, In b r -> exists a, In a l /\ f a = Ok b) /\
  (forall a, In a l -> exists b, In b r /\ f a = Ok b).
Proof.
  induction l as [|a l IH]; cbn [mapM]; intros r H.
  - injection H as <-. split; intros ? [].
  - apply bind_ok in H. destruct H as [b [Hb H]]. apply bind_ok in H. destruct H as [bs [Hbs H]].
    injection H as <-. destruct (IH bs Hbs) as [I1 I2]. split.
    + intros c [<-|Hc]; [exists a; simpl; auto|]. destruct (I1 c Hc) as [a' [H1 H2]]. exists a'. simpl; auto.
    + intros c [<-|Hc]; [exists b; simpl; auto|]. destruct (I2 c Hc) as [b' [H1 H2]]. exists b'. simpl; auto.
Qed.

Lemma mapM_ok {A B} (f : A -> res B) l : (forall a, In a l -> exists b, f a = Ok b) ->
  exists r, mapM f l = Ok r.
Proof.
  induction l as [|a l IH]; cbn [mapM]; intros H; [eauto|].
  destruct (H a (or_introl eq_refl)) as [b Hb]. rewrite Hb. cbn [bind].
  destruct IH as [r Hr]; [intros; apply H; right; assumption|]. rewrite Hr. cbn [bind]. eauto.
Qed.

Lemma covered_concat gs x : covered (concat gs) x <-> exists g, In g gs /\ covered g x.
Proof.
  unfold covered. split.
  - intros [n [Hn Hx]]. apply in_concat in Hn. destruct Hn as [g [Hg Hn]]. eauto.
  - intros [g [Hg [n [Hn Hx]]]]. exists n. split; [|assumption]. apply in_concat. eauto.
Qed.

Definition vgroups (gs : list (list net)) : Prop := forall g, In g gs -> valid_list g.

Lemma covered_concat_app a b x : covered (concat (a ++ b)) x <-> covered (concat a) x \/ covered (concat b) x.
Proof. rewrite concat_app. apply covered_app. Qed.
Lemma covered_concat_cons g b x : covered (concat (g :: b)) x <-> covered g x \/ covered (concat b) x.
Proof. simpl. apply covered_app. Qed.
Lemma covered_concat_rev a x : covered (concat (rev a)) x <-> covered (concat a) x.
Proof. rewrite !covered_concat. split; intros [h [Hh Hx]]; exists h; (split; [|assumption]); apply in_rev; [|rewrite rev_involutive]; assumption. Qed.

(** After the scan nothing is lost: every group of the old array is either still
    there or covered by [ip]; if [ip] is not to be added, some kept group covers it. *)
Lemma dedup_scan_spec ip : valid_list ip -> forall (k : nat) todo done,
  (List.length todo <= k)%nat ->
  vgroups (done ++ todo) ->
  let '(add, acc) := dedup_scan ip done todo in
  (forall g, In g acc -> In g (done ++ todo)) /\
  forall x, ((covered (concat acc) x \/ covered ip x) <-> (covered (concat (done ++ todo)) x \/ covered ip x))
  /\ (add = false -> covered ip x -> covered (concat acc) x).
Proof.
  intros Vip. induction k as [|k IH]; intros todo done Hk Hv.
  - destruct todo; [|simpl in Hk; lia]. cbn [dedup_scan]. rewrite app_nil_r in *. split.
    + intros g Hg. apply in_rev. exact Hg.
    + intros x. rewrite covered_concat_rev. split; [tauto|discriminate].
  - destruct todo as [|g rest]; [apply (IH [] done); [simpl; lia|assumption]|].
    cbn [dedup_scan].
    assert (Vg : valid_list g) by (apply Hv; apply in_or_app; right; left; reflexivity).
    destruct (is_super_net g ip) eqn:E1.
    { split.
      - intros h Hh. apply in_app_or in Hh. apply in_or_app. destruct Hh as [Hh|Hh]; [left; apply in_rev; exact Hh|auto].
      - intros x. pose proof (is_super_net_covered g ip Vg Vip E1 x) as Hc.
        rewrite !covered_concat_app, covered_concat_rev, covered_concat_cons. tauto. }
    destruct (is_super_net ip g) eqn:E2.
    { pose proof (is_super_net_covered ip g Vip Vg E2) as Hc.
      destruct rest as [|sk rest].
      - split.
        + intros h Hh. apply in_or_app. left. apply in_rev. exact Hh.
        + intros x. specialize (Hc x). rewrite covered_concat_rev, covered_concat_app, covered_concat_cons.
          simpl (concat []). rewrite covered_nil. split; [tauto|discriminate].
      - assert (Hv' : vgroups ((sk :: done) ++ rest)).
        { intros h Hh. apply Hv. simpl in Hh. destruct Hh as [<-|Hh].
          - apply in_or_app. right; right; left; reflexivity.
          - apply in_app_or in Hh. apply in_or_app. destruct Hh; [left|right; right; right]; assumption. }
        specialize (IH rest (sk :: done) ltac:(simpl in Hk; lia) Hv').
        destruct (dedup_scan ip (sk :: done) rest) as [add acc]. destruct IH as [I1 I2]. split.
        + intros h Hh. specialize (I1 h Hh). simpl in I1. apply in_or_app.
          destruct I1 as [<-|I1]; [right; right; left; reflexivity|].
          apply in_app_or in I1. destruct I1; [left|right; right; right]; assumption.
        + intros x. specialize (Hc x). destruct (I2 x) as [I2a I2b].
          rewrite covered_concat_app, covered_concat_cons in I2a.
          rewrite covered_concat_app, !covered_concat_cons. split; [tauto|assumption]. }
    assert (Hv' : vgroups ((g :: done) ++ rest)).
    { intros h Hh. apply Hv. simpl in Hh. destruct Hh as [<-|Hh].
      - apply in_or_app. right; left; reflexivity.
      - apply in_app_or in Hh. apply in_or_app. destruct Hh; [left|right; right]; assumption. }
    specialize (IH rest (g :: done) ltac:(simpl in Hk; lia) Hv').
    destruct (dedup_scan ip (g :: done) rest) as [add acc]. destruct IH as [I1 I2]. split.
    + intros h Hh. specialize (I1 h Hh). simpl in I1. apply in_or_app.
      destruct I1 as [<-|I1]; [right; left; reflexivity|].
      apply in_app_or in I1. destruct I1; [left|right; right]; assumption.
    + intros x. destruct (I2 x) as [I2a I2b].
      rewrite covered_concat_app, covered_concat_cons in I2a.
      rewrite covered_concat_app, !covered_concat_cons. split; [tauto|assumption].
Qed.

Lemma dedup_groups_spec : forall gs acc, vgroups gs -> vgroups acc ->
  (forall g, In g (dedup_groups gs acc) -> In g gs \/ In g acc) /\
  forall x, covered (concat (dedup_groups gs acc)) x <-> covered (concat gs) x \/ covered (concat acc) x.
Proof.
  induction gs as [|ip gs IH]; intros acc Hg Ha; cbn [dedup_groups].
  - split; [auto|]. intros x. simpl. rewrite covered_nil. tauto.
  - assert (Vip : valid_list ip) by (apply Hg; left; reflexivity).
    pose proof (dedup_scan_spec ip Vip (List.length acc) acc [] ltac:(lia) Ha) as HS.
    cbn [app] in HS. destruct (dedup_scan ip [] acc) as [add acc']. destruct HS as [S1 S2].
    destruct (IH (if add then acc' ++ [ip] else acc')) as [I1 I2].
    { intros h Hh. apply Hg. right; assumption. }
    { intros h Hh. destruct add.
      - apply in_app_or in Hh. destruct Hh as [Hh|[<-|[]]]; [apply Ha; auto|assumption].
      - apply Ha; auto. }
    split.
    + intros h Hh. destruct (I1 h Hh) as [H|H]; [left; right; assumption|].
      destruct add.
      * apply in_app_or in H. destruct H as [H|[<-|[]]]; [auto|left; left; reflexivity].
      * auto.
    + intros x. rewrite (I2 x). destruct (S2 x) as [S2a S2b]. rewrite covered_concat_cons.
      destruct add.
      * rewrite covered_concat_app, covered_concat_cons. simpl (concat []). rewrite covered_nil. tauto.
      * assert (covered ip x -> covered (concat acc') x) by auto. tauto.
Qed.

(** ** Tokens *)
Definition tok (T : string) (n : net) : Prop := nptoken n = T /\ ntoken n = T.

Lemma push_tok T cs : forall st a r, tok T a -> Forall (tok T) st -> push cs a st = Ok r -> Forall (tok T) r.
Proof.
  induction st as [|p st IH]; cbn [push]; intros a r Ha Hs H.
  - injection H as <-. constructor; auto.
  - inversion Hs as [|? ? Hp Hst]; subst. apply bind_ok in H. destruct H as [safe [_ H]].
    destruct (negb safe). { injection H as <-. auto. }
    destruct (supernet_of p a). { injection H as <-. constructor; [destruct Hp; split; assumption|assumption]. }
    destruct (mergeable p a).
    + eapply IH; [|exact Hst|exact H]. destruct Hp. unfold supernet. simpl.
      destruct (nlen p =? 0); split; simpl; assumption.
    + injection H as <-. auto.
Qed.

Lemma push_all_tok T cs : forall l st r, Forall (tok T) l -> Forall (tok T) st ->
  push_all cs l st = Ok r -> Forall (tok T) r.
Proof.
  induction l as [|a l IH]; cbn [push_all]; intros st r Hl Hs H.
  - injection H as <-. assumption.
  - apply bind_ok in H. destruct H as [st' [H1 H2]]. inversion Hl as [|? ? Ha Hl']; subst.
    exact (IH st' r Hl' (push_tok T cs st a st' Ha Hs H1) H2).
Qed.

Lemma collapse_tok T l r : Forall (tok T) l -> collapse_addr_list l [] = Ok r -> Forall (tok T) r.
Proof.
  intros Hl H. unfold collapse_addr_list, collapse_internal in H. cbn [filter] in H.
  apply bind_ok in H. destruct H as [st [H1 H2]]. injection H2 as <-. apply Forall_rev.
  eapply push_all_tok; [|constructor|exact H1].
  rewrite Forall_forall in *. intros n Hn. apply Hl. apply py_sorted_in in Hn. exact Hn.
Qed.

Lemma preserve_tokens_spec l : valid_list l ->
  exists r, collapse_preserve_tokens l = Ok r /\ valid_list r /\
    (forall x, covered r x <-> covered l x) /\
    ((forall n, In n l -> ntoken n = nptoken n) ->
     forall n, In n r -> forall x, covers n x ->
       exists m, In m l /\ nptoken m = nptoken n /\ covers m x).
Proof.
  intros V. unfold collapse_preserve_tokens.
  set (s := py_sorted _ l).
  assert (Hin : forall n, In n s <-> In n l) by (intros n; apply py_sorted_in).
  assert (Hg : forall g, In g (group_runs nptoken s) -> forall n, In n g -> In n l).
  { intros g H n Hn. apply Hin. rewrite <- (concat_group_runs nptoken s). apply in_concat. eauto. }
  assert (Vg : vgroups (group_runs nptoken s)).
  { intros g H. unfold valid_list in *. rewrite Forall_forall in *. intros n Hn. apply V. eapply Hg; eauto. }
  destruct (mapM_ok (fun g => collapse_addr_list g []) (group_runs nptoken s)) as [gs Hgs].
  { intros g H. destruct (collapse_total_canonical g (Vg g H)) as [r [Hr _]]. eauto. }
  rewrite Hgs. cbn [bind]. destruct (mapM_in _ _ _ Hgs) as [M1 M2].
  assert (Vgs : vgroups gs).
  { intros h Hh. destruct (M1 h Hh) as [g [Hg1 Hg2]].
    exact (proj1 (collapse_coverage g [] h (Vg g Hg1) Hg2)). }
  destruct (dedup_groups_spec gs [] Vgs) as [D1 D2]; [intros ? []|].
  eexists. split; [reflexivity|]. split; [|split].
  - unfold valid_list. rewrite Forall_forall. intros n Hn. apply in_concat in Hn.
    destruct Hn as [h [Hh Hn]]. destruct (D1 h Hh) as [H|[]].
    specialize (Vgs h H). unfold valid_list in Vgs. rewrite Forall_forall in Vgs. auto.
  - intros x. rewrite D2. simpl. rewrite covered_nil, !covered_concat. split.
    + intros [[h [Hh Hx]]|[]]. destruct (M1 h Hh) as [g [Hg1 Hg2]].
      destruct (collapse_coverage g [] h (Vg g Hg1) Hg2) as [_ Hc]. apply Hc in Hx.
      destruct Hx as [n [Hn Hx]]. exists n. split; [eapply Hg; eauto|assumption].
    + intros [n [Hn Hx]]. left. apply Hin in Hn. rewrite <- (concat_group_runs nptoken s) in Hn.
      apply in_concat in Hn. destruct Hn as [g [Hg1 Hg2]]. destruct (M2 g Hg1) as [h [Hh1 Hh2]].
      exists h. split; [assumption|]. destruct (collapse_coverage g [] h (Vg g Hg1) Hh2) as [_ Hc].
      apply Hc. exists n; auto.
  - intros Htok n Hn x Hx. apply in_concat in Hn. destruct Hn as [h [Hh Hn]].
    destruct (D1 h Hh) as [H|[]]. destruct (M1 h H) as [g [Hg1 Hg2]].
    destruct (collapse_coverage g [] h (Vg g Hg1) Hg2) as [_ Hc].
    destruct (proj1 (Hc x)) as [m [Hm Hmx]]; [exists n; auto|].
    assert (HT : Forall (tok (nptoken m)) g).
    { rewrite Forall_forall. intros k Hk. pose proof (group_runs_same nptoken s g Hg1 k m Hk Hm) as E.
      split; [exact E|]. rewrite <- E. apply Htok. eapply Hg; eauto. }
    pose proof (collapse_tok _ _ _ HT Hg2) as Hh'. rewrite Forall_forall in Hh'.
    destruct (Hh' n Hn) as [E _]. exists m. split; [eapply Hg; eauto|]. auto.
Qed.

(** ** Forms used by PropsIP.v *)
Lemma preserve_tokens_coverage l : valid_list l ->
  exists r, collapse_preserve_tokens l = Ok r /\ valid_list r /\ forall x, covered r x <-> covered l x.
Proof. intros V. destruct (preserve_tokens_spec l V) as (r & H1 & H2 & H3 & _). eauto. Qed.

Lemma preserve_tokens_attribution l r : valid_list l ->
  (forall n, In n l -> ntoken n = nptoken n) ->
  collapse_preserve_tokens l = Ok r ->
  forall n x, In n r -> covers n x -> exists m, In m l /\ nptoken m = nptoken n /\ covers m x.
Proof.
  intros V Ht Hr n x Hn Hx. destruct (preserve_tokens_spec l V) as (r' & H1 & _ & _ & H4).
  assert (r' = r) by congruence. subst. eauto.
Qed.

Lemma collapse_never_raises_partial l c : valid_list l ->
  c = [] \/ (exists v, Forall (fun n => nver n = v) l) ->
  exists r, collapse_addr_list l c = Ok r.
Proof.
  intros V [->|[v H]].
  - destruct (collapse_total_canonical l V) as [r [Hr _]]. eauto.
  - eapply collapse_ok_same; eauto.
Qed.

(** Any list covering the same addresses is at least as long: each network of the
    canonical list contains the first address of ... *)
Lemma canonical_shortest : forall r other, valid_list r -> valid_list other -> canonical r ->
  (forall x, covered other x <-> covered r x) -> (List.length r <= List.length other)%nat.
Proof.
  intros r other Vr Vo Cr Hc.
  (* every element of other sits inside exactly one element of r, and every element
     of r has one inside it: an injection r -> other *)
  assert (Hex : forall n, In n r -> exists m, In m other /\ subset m n).
  { intros n Hn. unfold valid_list in *. rewrite Forall_forall in *.
    pose proof (size_pos n ltac:(apply (Vr n Hn))).
    destruct (proj2 (Hc (nver n, naddr n))) as [m [Hm Hx]].
    { exists n. split; [assumption|]. split; simpl; [reflexivity|lia]. }
    exists m. split; [assumption|].
    destruct (block_covered r) with (B := m) (k := Z.to_nat (width (nver m) - nlen m)) as [n' [Hn' Hs]].
    - unfold valid_list. rewrite Forall_forall. assumption.
    - apply Cr.
    - apply Vo; assumption.
    - destruct (Vo m Hm) as [? _]. lia.
    - intros x Hmx. apply Hc. exists m; auto.
    - replace n with n'; [assumption|].
      eapply sorted_before_disjoint; [apply Cr|exact Hn'|exact Hn|apply Hs; exact Hx|].
      split; simpl; [reflexivity|lia]. }
  clear Hc.
  assert (Hd : forall a b x, In a r -> In b r -> covers a x -> covers b x -> a = b)
    by (intros; eapply sorted_before_disjoint; [apply Cr|..]; eassumption).
  assert (Hnd : NoDup r).
  { destruct Cr as [Hs _]. clear - Hs Vr. induction Hs as [|a l Hs IH Ha]; constructor.
    - intros Hin. rewrite Forall_forall in Ha. inversion Vr; subst.
      eapply before_irrefl; [eassumption|]. apply Ha. exact Hin.
    - apply IH. inversion Vr; assumption. }
  assert (Vr' := Vr). unfold valid_list in Vr', Vo. rewrite Forall_forall in Vr', Vo.
  revert other Vo Hex. clear Vr Cr. induction r as [|n r IH]; intros other Vo Hex; [simpl; lia|].
  destruct (Hex n (or_introl eq_refl)) as [m [Hm Hs]].
  apply in_split in Hm. destruct Hm as [o1 [o2 ->]].
  rewrite app_length. simpl. inversion Hnd as [|? ? Hn Hnd']; subst.
  assert (List.length r <= List.length (o1 ++ o2))%nat; [|rewrite app_length in *; lia].
  apply IH.
  - intros; eapply Hd; try right; eassumption.
  - assumption.
  - intros k Hk. apply Vr'. right; assumption.
  - intros k Hk. apply Vo. apply in_app_or in Hk. apply in_or_app. simpl. tauto.
  - intros k Hk. destruct (Hex k (or_intror Hk)) as [m' [Hm' Hs']].
    exists m'. split; [|assumption]. apply in_app_or in Hm'. apply in_or_app.
    destruct Hm' as [H|[<-|H]]; auto. exfalso. apply Hn.
    assert (Vm : valid m) by (apply Vo; apply in_or_app; right; left; reflexivity).
    pose proof (size_pos m ltac:(apply Vm)).
    assert (Hx : covers m (nver m, naddr m)) by (split; simpl; [reflexivity|lia]).
    replace n with k; [assumption|].
    eapply Hd; [right; exact Hk|left; reflexivity|apply Hs'; exact Hx|apply Hs; exact Hx].
Qed.

Lemma collapse_shortest l r other : valid_list l -> valid_list other ->
  collapse_addr_list l [] = Ok r -> (forall x, covered other x <-> covered l x) ->
  (List.length r <= List.length other)%nat.
Proof.
  intros V Vo Hr Hc. destruct (collapse_total_canonical l V) as (r' & E & W & C).
  assert (r' = r) by congruence. subst. apply canonical_shortest; try assumption.
  intros x. rewrite Hc. symmetry. apply (collapse_coverage l [] r V Hr).
Qed.
