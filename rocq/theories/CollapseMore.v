(** Comments, provenance, exceptions and most-specific matching for
    CollapseAddrList. *)
From Coq Require Import Lia ZifyBool ZifyNat Permutation Sorted.
From Verif Require Import SpecIP IPFacts BaseFacts CollapseProofs.
Local Open Scope Z_scope.

Definition rep (a n : net) : Prop := subset a n /\ contains (ntext n) (ntext a).

Lemma subset_refl a : subset a a. Proof. intros x; auto. Qed.
Lemma subset_trans a b c : subset a b -> subset b c -> subset a c.
Proof. intros H1 H2 x Hx. auto. Qed.
Lemma rep_refl a : rep a a. Proof. split; [apply subset_refl|apply contains_refl]. Qed.
Lemma rep_trans a b c : rep a b -> rep b c -> rep a c.
Proof.
  intros [H1 H2] [H3 H4]. split; [eapply subset_trans; eauto|eapply contains_trans; eauto].
Qed.

Lemma add_comment_keeps n c : contains (ntext (add_comment n c)) (ntext n).
Proof.
  unfold add_comment; cbn [ntext].
  destruct (is_empty (ntext n)) eqn:E; cbn [negb].
  - apply is_empty_true in E. rewrite E. apply contains_empty.
  - destruct (negb (is_empty c) && negb (substring_of c (ntext n))).
    + exists ""%string, (", " ++ c)%string. reflexivity.
    + apply contains_refl.
Qed.
Lemma add_comment_adds n c : contains (ntext (add_comment n c)) c.
Proof.
  unfold add_comment; cbn [ntext].
  destruct (is_empty (ntext n)) eqn:E; cbn [negb]; [apply contains_refl|].
  destruct (is_empty c) eqn:Ec; cbn [negb andb].
  - apply is_empty_true in Ec. rewrite Ec. apply contains_empty.
  - destruct (substring_of c (ntext n)) eqn:Es; cbn [negb].
    + apply substring_of_spec. exact Es.
    + exists (ntext n ++ ", ")%string, ""%string.
      rewrite str_app_nil, str_app_assoc. reflexivity.
Qed.

Lemma supernet_text n : ntext (supernet n) = ntext n.
Proof. unfold supernet. destruct (nlen n =? 0); reflexivity. Qed.

Lemma push_rep cs : forall st a st',
  valid a -> valid_list st -> push cs a st = Ok st' ->
  forall y, y = a \/ In y st -> exists t, In t st' /\ rep y t.
Proof.
  induction st as [|prev st IH]; cbn [push]; intros a st' Ha Hst Hp y Hy.
  - injection Hp as <-. destruct Hy as [->|[]]. exists a. split; [left; reflexivity|apply rep_refl].
  - inversion Hst as [|? ? Hprev Hst']; subst.
    apply bind_ok in Hp. destruct Hp as [safe [_ Hp]].
    assert (Happ : Ok (a :: prev :: st) = Ok st' -> exists t, In t st' /\ rep y t).
    { intros E. injection E as <-. exists y. split; [|apply rep_refl].
      destruct Hy as [->|Hy]; [left; reflexivity|right; exact Hy]. }
    destruct safe; cbn [negb] in Hp; [|apply Happ; exact Hp].
    destruct (supernet_of prev a) eqn:Es.
    { injection Hp as <-. unfold supernet_of in Es. apply subnet_of_spec in Es; try assumption.
      assert (Hs : subset prev (add_comment prev (ntext a))) by (intros x; rewrite add_comment_covers; auto).
      destruct Hy as [->|[<-|Hy]].
      - exists (add_comment prev (ntext a)). split; [left; reflexivity|].
        split; [eapply subset_trans; eauto|apply add_comment_adds].
      - exists (add_comment prev (ntext a)). split; [left; reflexivity|].
        split; [exact Hs|apply add_comment_keeps].
      - exists y. split; [right; assumption|apply rep_refl]. }
    destruct (mergeable prev a) eqn:Em; [|apply Happ; exact Hp].
    set (p' := add_comment prev (ntext a)) in *.
    assert (Hpv : valid p') by (apply add_comment_valid; assumption).
    assert (Em' : mergeable p' a = true) by exact Em.
    pose proof (mergeable_supernet _ _ Hpv Ha Em') as Hms.
    pose proof (IH _ _ (mergeable_valid _ _ Hpv Ha Em') Hst' Hp) as IH'.
    assert (Hsup : forall z, z = a \/ z = prev -> rep z (supernet p')).
    { intros z [->| ->]; split.
      - intros x Hx. apply Hms. right; exact Hx.
      - rewrite supernet_text. apply add_comment_adds.
      - intros x Hx. apply Hms. left. apply add_comment_covers. exact Hx.
      - rewrite supernet_text. apply add_comment_keeps. }
    destruct Hy as [->|[<-|Hy]].
    + destruct (IH' (supernet p') (or_introl eq_refl)) as [t [Ht Hr]].
      exists t. split; [assumption|]. eapply rep_trans; [apply Hsup; auto|exact Hr].
    + destruct (IH' (supernet p') (or_introl eq_refl)) as [t [Ht Hr]].
      exists t. split; [assumption|]. eapply rep_trans; [apply Hsup; auto|exact Hr].
    + apply IH'. right; exact Hy.
Qed.

Lemma push_all_rep cs : forall l st st',
  valid_list l -> valid_list st -> push_all cs l st = Ok st' ->
  forall y, In y l \/ In y st -> exists t, In t st' /\ rep y t.
Proof.
  induction l as [|a l IH]; cbn [push_all]; intros st st' Hl Hst Hp y Hy.
  - injection Hp as <-. destruct Hy as [[]|Hy]. exists y. split; [assumption|apply rep_refl].
  - inversion Hl as [|? ? Va Vl]; subst. apply bind_ok in Hp. destruct Hp as [st1 [H1 H2]].
    pose proof (proj1 (push_coverage _ _ _ _ Va Hst H1)) as V1.
    assert (Hst1 : forall z, z = a \/ In z st -> exists t, In t st' /\ rep z t).
    { intros z Hz. destruct (push_rep _ _ _ _ Va Hst H1 z Hz) as [t1 [Ht1 Hr1]].
      destruct (IH _ _ Vl V1 H2 t1 (or_intror Ht1)) as [t [Ht Hr]].
      exists t. split; [assumption|eapply rep_trans; eauto]. }
    destruct Hy as [[<-|Hy]|Hy].
    + apply Hst1; left; reflexivity.
    + eapply IH; eauto.
    + apply Hst1; right; assumption.
Qed.

Lemma collapse_rep l cs r : valid_list l -> collapse_addr_list l cs = Ok r ->
  forall a, In a l -> exists n, In n r /\ subset a n /\ contains (ntext n) (ntext a).
Proof.
  unfold collapse_addr_list, collapse_internal. intros Hl H a Ha.
  apply bind_ok in H. destruct H as [st [Hp Hr]]. injection Hr as <-.
  destruct (push_all_rep _ _ _ _ (sort_valid l Hl) (Forall_nil _) Hp a) as [t [Ht Hr]].
  { left. apply py_sorted_in. exact Ha. }
  exists t. split; [apply in_rev in Ht; exact Ht|exact Hr].
Qed.

(** ** Provenance: an output network is filled by input networks inside it. *)
Definition filled (src : net -> Prop) (t : net) : Prop :=
  forall x, covers t x -> exists a, src a /\ subset a t /\ covers a x.

Lemma push_filled cs (src : net -> Prop) : forall st a st',
  valid a -> valid_list st -> push cs a st = Ok st' ->
  filled src a -> (forall t, In t st -> filled src t) ->
  forall t, In t st' -> filled src t.
Proof.
  induction st as [|prev st IH]; cbn [push]; intros a st' Ha Hst Hp Fa Fst t Ht.
  - injection Hp as <-. destruct Ht as [<-|[]]. exact Fa.
  - inversion Hst as [|? ? Hprev Hst']; subst.
    apply bind_ok in Hp. destruct Hp as [safe [_ Hp]].
    assert (Happ : Ok (a :: prev :: st) = Ok st' -> filled src t).
    { intros E. injection E as <-. destruct Ht as [<-|Ht]; [exact Fa|]. apply Fst; exact Ht. }
    assert (Fc : forall c, filled src (add_comment prev c)).
    { intros c x Hx. apply add_comment_covers in Hx.
      destruct (Fst prev (or_introl eq_refl) x Hx) as (b & H1 & H2 & H3).
      exists b. split; [assumption|]. split; [|assumption].
      intros z Hz. apply add_comment_covers. auto. }
    destruct safe; cbn [negb] in Hp; [|apply Happ; exact Hp].
    destruct (supernet_of prev a) eqn:Es.
    { injection Hp as <-. destruct Ht as [<-|Ht]; [apply Fc|apply Fst; right; exact Ht]. }
    destruct (mergeable prev a) eqn:Em; [|apply Happ; exact Hp].
    set (p' := add_comment prev (ntext a)) in *.
    assert (Hpv : valid p') by (apply add_comment_valid; assumption).
    assert (Em' : mergeable p' a = true) by exact Em.
    pose proof (mergeable_supernet _ _ Hpv Ha Em') as Hms.
    eapply IH; [exact (mergeable_valid _ _ Hpv Ha Em')|exact Hst'|exact Hp| | |exact Ht].
    + intros x Hx. apply Hms in Hx. destruct Hx as [Hx|Hx].
      * destruct (Fc (ntext a) x Hx) as (b & H1 & H2 & H3). exists b. split; [assumption|]. split; [|assumption].
        intros z Hz. apply Hms. left. apply H2. exact Hz.
      * destruct (Fa x Hx) as (b & H1 & H2 & H3). exists b. split; [assumption|]. split; [|assumption].
        intros z Hz. apply Hms. right. apply H2. exact Hz.
    + intros u Hu. apply Fst. right; exact Hu.
Qed.

Lemma push_all_filled cs (src : net -> Prop) : forall l st st',
  valid_list l -> valid_list st -> push_all cs l st = Ok st' ->
  (forall a, In a l -> filled src a) -> (forall t, In t st -> filled src t) ->
  forall t, In t st' -> filled src t.
Proof.
  induction l as [|a l IH]; cbn [push_all]; intros st st' Hl Hst Hp Fl Fst t Ht.
  - injection Hp as <-. auto.
  - inversion Hl as [|? ? Va Vl]; subst. apply bind_ok in Hp. destruct Hp as [st1 [H1 H2]].
    eapply IH; [exact Vl| |exact H2| | |exact Ht].
    + apply push_coverage in H1; tauto.
    + intros b Hb. apply Fl; right; exact Hb.
    + eapply push_filled; [exact Va|exact Hst|exact H1| |exact Fst]. apply Fl; left; reflexivity.
Qed.

Lemma collapse_filled l cs r : valid_list l -> collapse_addr_list l cs = Ok r ->
  forall n x, In n r -> covers n x -> exists a, In a l /\ subset a n /\ covers a x.
Proof.
  unfold collapse_addr_list, collapse_internal. intros Hl H n x Hn Hx.
  apply bind_ok in H. destruct H as [st [Hp Hr]]. injection Hr as <-.
  apply in_rev in Hn.
  refine (push_all_filled _ (fun a => In a l) _ _ _ (sort_valid l Hl) (Forall_nil _) Hp _ _ n Hn x Hx).
  - intros a Ha y Hy. exists a. apply py_sorted_in in Ha. auto using subset_refl.
  - intros t [].
Qed.

Lemma collapse_specific_sound l ex r : valid_list l -> collapse_addr_list l ex = Ok r ->
  forall x, specific_match r ex x -> specific_match l ex x.
Proof.
  intros Hl Hr x (n & Hn & Hx & He).
  destruct (collapse_filled l ex r Hl Hr n x Hn Hx) as (a & Ha & Hs & Hax).
  exists a. split; [assumption|]. split; [assumption|]. intros e He1 He2.
  pose proof (proj1 (collapse_coverage _ _ _ Hl Hr)) as Vr.
  unfold valid_list in *. rewrite Forall_forall in *.
  pose proof (subset_len a n (Hl a Ha) (Vr n Hn) Hs) as (_ & _ & _ & H).
  specialize (He e He1 He2). lia.
Qed.

(** ** Exclusions that cover a listed network and start where it starts *)
Lemma safe_to_merge_true a t : forall cs, safe_to_merge a t cs = Ok true ->
  forall c, In c cs -> ~ (netmask t <= netmask c < netmask a).
Proof.
  induction cs as [|c cs IH]; cbn [safe_to_merge]; [intros _ c []|]. intros H c' [<-|Hc'].
  - destruct (negb (ver_eqb (nver t) (nver c))); [discriminate|].
    destruct (netmask t <=? netmask c) eqn:E1; [|lia].
    destruct (negb (ver_eqb (nver c) (nver a))); [discriminate|].
    destruct (netmask c <? netmask a) eqn:E2; [discriminate|lia].
  - apply IH; [|assumption].
    destruct (negb (ver_eqb (nver t) (nver c))); [discriminate|].
    destruct (netmask t <=? netmask c) eqn:E1; [|assumption].
    destruct (negb (ver_eqb (nver c) (nver a))); [discriminate|].
    destruct (netmask c <? netmask a) eqn:E2; [discriminate|assumption].
Qed.

Definition tracked (cs ex : list net) (n : net) : Prop :=
  forall e, In e ex -> subset n e -> In e (checks_for cs n).

Lemma subset_prefix a b c : prefix_of a = prefix_of b -> subset a c -> subset b c.
Proof. intros E H x Hx. apply H. apply (prefix_covers _ _ E). exact Hx. Qed.

Lemma push_specific cs ex : valid_list ex -> forall st a st',
  valid a -> valid_list st -> push cs a st = Ok st' ->
  tracked cs ex a -> Forall (tracked cs ex) st ->
  Forall (tracked cs ex) st' /\
  forall x, specific_match (a :: st) ex x -> specific_match st' ex x.
Proof.
  intros Vex. unfold valid_list in Vex. rewrite Forall_forall in Vex.
  induction st as [|prev st IH]; cbn [push]; intros a st' Ha Hst Hp Ta Tst.
  - injection Hp as <-. split; [constructor; [assumption|constructor]|auto].
  - inversion Hst as [|? ? Hprev Hst']; subst. inversion Tst as [|? ? Tp Tst']; subst.
    apply bind_ok in Hp. destruct Hp as [safe [Hsafe Hp]].
    assert (Happ : Ok (a :: prev :: st) = Ok st' -> Forall (tracked cs ex) st' /\
              forall x, specific_match (a :: prev :: st) ex x -> specific_match st' ex x).
    { intros E. injection E as <-. split; [constructor; assumption|auto]. }
    destruct safe; cbn [negb] in Hp; [|apply Happ; exact Hp].
    pose proof (safe_to_merge_true _ _ _ Hsafe) as Safe.
    destruct (supernet_of prev a) eqn:Es.
    { injection Hp as <-. unfold supernet_of in Es. apply subnet_of_spec in Es; try assumption.
      split; [constructor; [exact Tp|assumption]|].
      assert (Hpn : forall x, covers prev x -> (forall e, In e ex -> covers e x -> nlen e < nlen prev) ->
                specific_match (add_comment prev (ntext a) :: st) ex x).
      { intros x Hx He. exists (add_comment prev (ntext a)). split; [left; reflexivity|].
        split; [apply add_comment_covers; exact Hx|exact He]. }
      intros x (n & [<-|[<-|Hn]] & Hx & He).
      - apply Hpn; [apply Es, Hx|]. intros e He1 He2.
        destruct (Z_lt_le_dec (nlen e) (nlen prev)) as [|Hle]; [assumption|]. exfalso.
        pose proof (He e He1 He2) as Hlt.
        assert (Hse : subset a e) by (eapply nested; eauto; lia).
        apply (Safe e (Ta e He1 Hse)).
        pose proof (subset_len a e Ha (Vex e He1) Hse) as (Hv & _).
        pose proof (subset_len a prev Ha Hprev Es) as (Hv' & _).
        assert (Vpe : nver prev = nver e) by congruence.
        pose proof (netmask_le prev e Hprev (Vex e He1) Vpe) as M1.
        pose proof (netmask_le a e Ha (Vex e He1) Hv) as M2. lia.
      - apply Hpn; assumption.
      - exists n. split; [right; assumption|]. split; assumption. }
    destruct (mergeable prev a) eqn:Em; [|apply Happ; exact Hp].
    set (p' := add_comment prev (ntext a)) in *.
    assert (Hpv : valid p') by (apply add_comment_valid; assumption).
    assert (Em' : mergeable p' a = true) by exact Em.
    pose proof (mergeable_supernet _ _ Hpv Ha Em') as Hms.
    pose proof (mergeable_valid _ _ Hpv Ha Em') as Vs.
    assert (No : forall e, In e ex -> ~ subset (supernet p') e).
    { intros e He Hs.
      assert (Hsa : subset a e) by (intros x Hx; apply Hs, Hms; right; exact Hx).
      assert (Hsp : subset prev e) by (intros x Hx; apply Hs, Hms; left; apply add_comment_covers; exact Hx).
      pose proof (Ta e He Hsa) as Hin. apply filter_In in Hin. destruct Hin as [_ Hin].
      unfold same_address in Hin. apply andb_true_iff in Hin. destruct Hin as [_ Hin].
      pose proof (subset_len prev e Hprev (Vex e He) Hsp) as (_ & L & _).
      apply mergeable_spec in Em'; try assumption. destruct Em' as (M1 & M2 & M3 & M4 & _).
      change (naddr p') with (naddr prev) in *.
      pose proof (size_pos p' ltac:(apply Hpv)). lia. }
    destruct (IH (supernet p') st' Vs Hst' Hp) as [T' S'].
    + intros e He Hs. destruct (No e He Hs).
    + exact Tst'.
    + split; [exact T'|]. intros x (n & Hn & Hx & He). apply S'.
      assert (Hm : n = a \/ n = prev -> specific_match (supernet p' :: st) ex x).
      { intros Hor. exists (supernet p'). split; [left; reflexivity|].
        assert (Hxs : covers (supernet p') x).
        { apply Hms. destruct Hor as [->| ->]; [right; exact Hx|left; apply add_comment_covers; exact Hx]. }
        split; [exact Hxs|]. intros e He1 He2.
        destruct (Z_lt_le_dec (nlen e) (nlen (supernet p'))) as [|Hle]; [assumption|]. exfalso.
        pose proof (He e He1 He2) as Hlt.
        assert (El : nlen a = nlen prev /\ nlen (supernet p') = nlen prev - 1).
        { apply mergeable_spec in Em'; try assumption. destruct Em' as (M1 & M2 & M3 & _).
          destruct (supernet_spec p' Hpv M3) as (_ & S2 & _).
          change (nlen p') with (nlen prev) in *. split; lia. }
        assert (Hee : nlen e = nlen (supernet p')) by (destruct Hor as [->| ->]; lia).
        apply (No e He1). eapply nested; eauto; lia. }
      destruct Hn as [<-|[<-|Hn]]; [apply Hm; auto|apply Hm; auto|].
      exists n. split; [right; assumption|]. split; assumption.
Qed.

Lemma push_all_specific cs ex : valid_list ex -> forall l st st',
  valid_list l -> valid_list st -> push_all cs l st = Ok st' ->
  Forall (tracked cs ex) l -> Forall (tracked cs ex) st ->
  forall x, specific_match l ex x \/ specific_match st ex x -> specific_match st' ex x.
Proof.
  intros Vex. induction l as [|a l IH]; cbn [push_all]; intros st st' Hl Hst Hp Tl Tst x Hx.
  - injection Hp as <-. destruct Hx as [(n & [] & _)|Hx]. exact Hx.
  - inversion Hl as [|? ? Va Vl]; subst. inversion Tl as [|? ? Ta Tl']; subst.
    apply bind_ok in Hp. destruct Hp as [st1 [H1 H2]].
    destruct (push_specific cs ex Vex st a st1 Va Hst H1 Ta Tst) as [T1 S1].
    apply (IH st1 st' Vl (proj1 (push_coverage _ _ _ _ Va Hst H1)) H2 Tl' T1).
    destruct Hx as [(n & [<-|Hn] & Hx)|(n & Hn & Hx)].
    + right. apply S1. exists a. split; [left; reflexivity|exact Hx].
    + left. exists n. auto.
    + right. apply S1. exists n. split; [right; exact Hn|exact Hx].
Qed.

Lemma collapse_keeps_verdict l ex r : valid_list l -> valid_list ex ->
  collapse_addr_list l ex = Ok r ->
  (forall a e, In a l -> In e ex -> subset a e -> naddr e = naddr a) ->
  forall x, specific_match r ex x <-> specific_match l ex x.
Proof.
  intros Hl Hex Hr H x. split; [eapply collapse_specific_sound; eauto|]. intros Hx.
  unfold collapse_addr_list, collapse_internal in Hr.
  apply bind_ok in Hr. destruct Hr as [st [Hp Hr]]. injection Hr as <-.
  assert (S : specific_match st ex x).
  { refine (push_all_specific _ ex Hex _ _ _ (sort_valid l Hl) (Forall_nil _) Hp _ (Forall_nil _) x _).
    - rewrite Forall_forall. intros a Ha e He Hs. apply py_sorted_in in Ha.
      assert (E : same_address (nver e) (naddr e) (nver a) (naddr a) = true).
      { unfold same_address. unfold valid_list in *. rewrite Forall_forall in *.
        pose proof (subset_len a e (Hl a Ha) (Hex e He) Hs) as (Hv & _).
        rewrite (H a e Ha He Hs), Hv, ver_eqb_refl, Z.eqb_refl. reflexivity. }
      apply filter_In. split; [|exact E]. apply filter_In. split; [exact He|].
      apply existsb_exists. exists a. split; [exact Ha|exact E].
    - left. destruct Hx as (n & Hn & Hx). exists n. split; [apply py_sorted_in; exact Hn|exact Hx]. }
  destruct S as (n & Hn & Hx'). exists n. split; [apply in_rev in Hn; exact Hn|exact Hx'].
Qed.

(** ** No exception within one family *)
Lemma safe_to_merge_ok v a t : forall cs, nver a = v -> nver t = v ->
  Forall (fun c => nver c = v) cs -> exists b, safe_to_merge a t cs = Ok b.
Proof.
  intros cs Ha Ht Hcs. induction Hcs as [|c cs Hc Hcs IH]; cbn [safe_to_merge]; [eauto|].
  rewrite Ht, Hc, Ha, !ver_eqb_refl. cbn [negb].
  destruct (netmask t <=? netmask c); [|exact IH].
  destruct (netmask c <? netmask a); [eauto|exact IH].
Qed.

Lemma push_ok_same v cs : forall st a,
  valid a -> valid_list st ->
  nver a = v -> Forall (fun p => nver p = v) st ->
  exists st', push cs a st = Ok st' /\ Forall (fun p => nver p = v) st'.
Proof.
  induction st as [|prev st IH]; cbn [push]; intros a Ha Hst Hv Hsv.
  - eexists; split; [reflexivity|]. repeat constructor; assumption.
  - inversion Hst as [|? ? Hprev Hst']; subst. inversion Hsv as [|? ? Hpv Hsv']; subst.
    assert (Hcs : Forall (fun c => nver c = nver a) (checks_for cs a)).
    { rewrite Forall_forall. intros c Hc. unfold checks_for in Hc.
      apply filter_In in Hc. destruct Hc as [_ Hc]. unfold same_address in Hc.
      apply andb_true_iff in Hc. apply ver_eqb_eq. tauto. }
    destruct (safe_to_merge_ok (nver a) a prev _ eq_refl Hpv Hcs) as [b Hb].
    rewrite Hb. cbn [bind]. destruct b; cbn [negb].
    + destruct (supernet_of prev a).
      { eexists; split; [reflexivity|]. constructor; assumption. }
      destruct (mergeable prev a) eqn:Em.
      * set (p' := add_comment prev (ntext a)) in *.
        assert (Hpv' : valid p') by (apply add_comment_valid; assumption).
        assert (Em' : mergeable p' a = true) by exact Em.
        pose proof Em' as Em2. apply mergeable_spec in Em2; try assumption.
        destruct Em2 as (E1 & E2 & E3 & _).
        destruct (supernet_spec p' Hpv' E3) as (S1 & _ & _ & _ & S5).
        apply IH; try assumption. rewrite S1. exact Hpv.
      * eexists; split; [reflexivity|]. repeat constructor; assumption.
    + eexists; split; [reflexivity|]. repeat constructor; assumption.
Qed.

Lemma push_all_ok_same v cs : forall l st,
  valid_list l -> valid_list st ->
  Forall (fun p => nver p = v) l -> Forall (fun p => nver p = v) st ->
  exists st', push_all cs l st = Ok st'.
Proof.
  induction l as [|a l IH]; cbn [push_all]; intros st Hl Hst Hv Hsv; [eauto|].
  inversion Hl; subst. inversion Hv; subst.
  destruct (push_ok_same (nver a) cs st a) as [st1 [H5 H6]]; try assumption; try reflexivity.
  rewrite H5. cbn [bind]. apply IH; try assumption. apply push_coverage in H5; tauto.
Qed.

Lemma collapse_ok_same v l cs : valid_list l -> Forall (fun p => nver p = v) l ->
  exists r, collapse_addr_list l cs = Ok r.
Proof.
  intros Hl Hv. unfold collapse_addr_list, collapse_internal.
  match goal with |- context [push_all ?c ?s []] =>
    destruct (push_all_ok_same v c s []) as [st Hst] end.
  - apply sort_valid; assumption.
  - constructor.
  - rewrite Forall_forall in *. intros p Hp. apply Hv. eapply py_sorted_in; eauto.
  - constructor.
  - rewrite Hst. cbn [bind]. eauto.
Qed.
