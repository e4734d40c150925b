(** Proofs about port lists. *)
From Coq Require Import Lia ZifyBool Permutation Sorted.
From Verif Require Import SpecPorts BaseFacts.
Local Open Scope Z_scope.

Definition pr_le (a b : prange) : Prop := fst a < fst b \/ (fst a = fst b /\ snd a <= snd b).
Lemma prange_leb_spec a b : prange_leb a b = true <-> pr_le a b.
Proof. unfold prange_leb, pr_le. destruct (fst a =? fst b) eqn:E; lia. Qed.
Lemma pr_le_trans a b c : pr_le a b -> pr_le b c -> pr_le a c.
Proof. unfold pr_le. lia. Qed.

Lemma ports_sorted l : StronglySorted pr_le (py_sorted prange_leb l).
Proof.
  assert (H : StronglySorted (fun x y => prange_leb x y = true) (py_sorted prange_leb l)).
  { apply py_sorted_sorted with (P := fun _ => True); [intros a b _ _|intros a b c _ _ _|apply Forall_forall; auto].
    - destruct (prange_leb a b) eqn:E; [auto|right]. apply prange_leb_spec.
      assert (~ pr_le a b) by (rewrite <- prange_leb_spec; congruence). unfold pr_le in *. lia.
    - rewrite !prange_leb_spec. apply pr_le_trans. }
  induction H as [|a k H IH Ha]; constructor; [assumption|].
  eapply Forall_impl; [|exact Ha]. intros b Hb. apply prange_leb_spec. exact Hb.
Qed.

Lemma in_ports_nil p : in_ports [] p <-> False.
Proof. unfold in_ports. split; [intros [r [[] _]]|tauto]. Qed.
Lemma in_ports_cons r l p : in_ports (r :: l) p <-> in_range r p \/ in_ports l p.
Proof.
  unfold in_ports. split.
  - intros [q [[<-|H] Hq]]; [left; assumption|right; eauto].
  - intros [H|[q [H Hq]]]; [exists r; simpl; auto|exists q; simpl; auto].
Qed.
Lemma in_ports_app l k p : in_ports (l ++ k) p <-> in_ports l p \/ in_ports k p.
Proof. induction l as [|r l IH]; simpl; rewrite ?in_ports_nil, ?in_ports_cons; [tauto|]. rewrite IH. tauto. Qed.
Lemma in_ports_same l k p : (forall r, In r l <-> In r k) -> in_ports l p <-> in_ports k p.
Proof. intros H. unfold in_ports. split; intros [r [Hr Hp]]; exists r; split; try assumption; apply H; assumption. Qed.
Lemma in_ports_rev l p : in_ports (rev l) p <-> in_ports l p.
Proof. apply in_ports_same. intros r. rewrite <- in_rev. tauto. Qed.
Lemma in_ports_sort l p : in_ports (py_sorted prange_leb l) p <-> in_ports l p.
Proof. apply in_ports_same. intros r. apply py_sorted_in. Qed.

Definition starts_le (st : list prange) (p : prange) : Prop :=
  match st with [] => True | l :: _ => fst l <= fst p end.

Lemma step_cover st p q : starts_le st p ->
  in_ports (collapse_port_step st p) q <-> in_ports st q \/ in_range p q.
Proof.
  destruct st as [|l st]; cbn [collapse_port_step]; intros H; simpl in H.
  - rewrite in_ports_cons, in_ports_nil. tauto.
  - destruct (snd p <=? snd l) eqn:E1.
    + rewrite in_ports_cons. unfold in_range. split; [tauto|]. intros [K|K]; [tauto|]. left. lia.
    + destruct ((fst p <? snd l) && (snd l <? snd p)) eqn:E2.
      * rewrite !in_ports_cons. unfold in_range. cbn [fst snd].
        destruct (Z_le_gt_dec q (snd l)); destruct (Z_le_gt_dec (fst l) q); intuition lia.
      * destruct (snd l + 1 =? fst p) eqn:E3.
        -- rewrite !in_ports_cons. unfold in_range. cbn [fst snd].
           destruct (Z_le_gt_dec q (snd l)); destruct (Z_le_gt_dec (fst l) q); intuition lia.
        -- rewrite !in_ports_cons. tauto.
Qed.

Lemma step_starts st p r : starts_le st p -> pr_le p r -> starts_le (collapse_port_step st p) r.
Proof.
  unfold pr_le. destruct st as [|l st]; cbn [collapse_port_step]; intros H1 H2; simpl in H1; [simpl; lia|].
  destruct (snd p <=? snd l); [simpl; lia|].
  destruct ((fst p <? snd l) && (snd l <? snd p)); [simpl; lia|].
  destruct (snd l + 1 =? fst p); simpl; lia.
Qed.

Lemma fold_cover : forall l st, StronglySorted pr_le l ->
  (forall p, In p l -> starts_le st p) ->
  forall q, in_ports (fold_left collapse_port_step l st) q <-> in_ports st q \/ in_ports l q.
Proof.
  induction l as [|p l IH]; intros st Hs Hst q; cbn [fold_left].
  - rewrite in_ports_nil. tauto.
  - inversion Hs as [|? ? Hs' Hp]; subst. rewrite Forall_forall in Hp. rewrite IH.
    + rewrite step_cover by (apply Hst; left; reflexivity). rewrite in_ports_cons. tauto.
    + assumption.
    + intros r Hr. apply step_starts; [apply Hst; left; reflexivity|apply Hp; assumption].
Qed.

Lemma collapse_ports_cover l p : in_ports (collapse_port_list l) p <-> in_ports l p.
Proof.
  unfold collapse_port_list. rewrite in_ports_rev, fold_cover.
  - rewrite in_ports_nil, in_ports_sort. tauto.
  - apply ports_sorted.
  - intros r _. exact I.
Qed.

(** Shape of the result: [st] reversed; consecutive ranges touch in one port or
    have a gap; every range is well formed. *)
Definition gap (a b : prange) : Prop := snd a = fst b \/ snd a + 1 < fst b.
Inductive shape : list prange -> Prop :=
| sh_nil : shape []
| sh_one a : fst a <= snd a -> shape [a]
| sh_cons a b l : fst b <= snd b -> snd a < snd b -> gap a b -> shape (a :: l) -> shape (b :: a :: l).

Lemma step_shape st p : fst p <= snd p -> starts_le st p -> shape st -> shape (collapse_port_step st p).
Proof.
  intros Hp Hs H. destruct st as [|l st]; cbn [collapse_port_step]; [constructor; assumption|].
  simpl in Hs. destruct (snd p <=? snd l) eqn:E1; [assumption|].
  assert (Hext : shape ((fst l, snd p) :: st)).
  { inversion H as [|? Hl|a b k Hb Hab Hg Hk]; subst; constructor; cbn [fst snd]; try lia; try assumption. }
  destruct ((fst p <? snd l) && (snd l <? snd p)) eqn:E2; [assumption|].
  destruct (snd l + 1 =? fst p) eqn:E3; [assumption|].
  constructor; [lia|lia| |assumption]. unfold gap. lia.
Qed.

Lemma fold_shape : forall l st, StronglySorted pr_le l -> (forall p, In p l -> starts_le st p) ->
  (forall p, In p l -> fst p <= snd p) -> shape st -> shape (fold_left collapse_port_step l st).
Proof.
  induction l as [|p l IH]; intros st Hs Hst Hwf Hsh; cbn [fold_left]; [assumption|].
  inversion Hs as [|? ? Hs' Hp]; subst. rewrite Forall_forall in Hp. apply IH.
  - assumption.
  - intros r Hr. apply step_starts; [apply Hst; left; reflexivity|apply Hp; assumption].
  - intros r Hr. apply Hwf. right; assumption.
  - apply step_shape; [apply Hwf|apply Hst|]; simpl; auto.
Qed.

(** Endpoints: every start/end of the result is the start/end of an input range. *)
Definition ends_from (src : prange -> Prop) (r : prange) : Prop :=
  (exists a, src a /\ fst a = fst r) /\ (exists b, src b /\ snd b = snd r).
Lemma fold_ends (src : prange -> Prop) : forall l st, (forall p, In p l -> src p) ->
  Forall (ends_from src) st -> Forall (ends_from src) (fold_left collapse_port_step l st).
Proof.
  induction l as [|p l IH]; intros st Hl Hst; cbn [fold_left]; [assumption|].
  apply IH; [intros; apply Hl; right; assumption|].
  assert (Hp : src p) by (apply Hl; left; reflexivity).
  assert (Hpp : ends_from src p) by (split; exists p; auto).
  destruct st as [|q st]; cbn [collapse_port_step]; [constructor; auto|].
  inversion Hst as [|? ? Hq Hst']; subst.
  assert (Hx : ends_from src (fst q, snd p)) by (split; [apply Hq|exists p; auto]).
  destruct (snd p <=? snd q); [assumption|].
  destruct ((fst p <? snd q) && (snd q <? snd p)); [constructor; assumption|].
  destruct (snd q + 1 =? fst p); [constructor; assumption|]. constructor; assumption.
Qed.

Lemma shape_wf st : shape st -> Forall (fun r => fst r <= snd r) st.
Proof. induction 1; constructor; auto. Qed.

(** Sorted, as a relation between any two positions of the (reversed) stack. *)
Definition touch_or_gap (a b : prange) : Prop := snd a <= fst b /\ snd a < snd b.
Lemma shape_strong st : shape st -> StronglySorted (fun b a => touch_or_gap a b) st.
Proof.
  induction 1 as [|a Ha|a b l Hb Hab Hg Hs IH]; [constructor|constructor; constructor|].
  constructor; [assumption|]. inversion IH as [|? ? IH' Hall]; subst.
  pose proof (shape_wf _ Hs) as Hw. inversion Hw as [|? ? Hwa Hwl]; subst.
  constructor.
  - unfold touch_or_gap, gap in *. lia.
  - rewrite Forall_forall in *. intros c Hc. specialize (Hall c Hc). unfold touch_or_gap, gap in *. lia.
Qed.

Lemma StronglySorted_rev {A} (R : A -> A -> Prop) l :
  StronglySorted (fun a b => R b a) l -> StronglySorted R (rev l).
Proof.
  induction 1 as [|a l H IH Ha]; simpl; [constructor|].
  assert (G : forall l', StronglySorted R l' -> Forall (fun b => R b a) l' -> StronglySorted R (l' ++ [a])).
  { induction 1 as [|b l' H' IH' Hb]; intros Hf; simpl; [constructor; constructor|].
    inversion Hf; subst. constructor; [auto|]. apply Forall_app. split; [assumption|constructor; auto]. }
  apply G; [assumption|]. apply Forall_rev. assumption.
Qed.

Lemma collapse_ports_shape l : (forall p, In p l -> fst p <= snd p) ->
  shape (rev (collapse_port_list l)).
Proof.
  intros H. unfold collapse_port_list. rewrite rev_involutive. apply fold_shape.
  - apply ports_sorted.
  - intros; exact I.
  - intros p Hp. apply H. eapply py_sorted_in; eauto.
  - constructor.
Qed.

Lemma collapse_ports_ascending l : (forall p, In p l -> fst p <= snd p) ->
  Forall (fun r => fst r <= snd r) (collapse_port_list l) /\
  StronglySorted (fun a b => snd a <= fst b /\ snd a < snd b) (collapse_port_list l).
Proof.
  intros H. pose proof (collapse_ports_shape l H) as Hs. rewrite <- (rev_involutive (collapse_port_list l)).
  split; [apply Forall_rev, shape_wf, Hs|]. apply StronglySorted_rev. apply (shape_strong _ Hs).
Qed.

Lemma collapse_ports_ends l r : In r (collapse_port_list l) ->
  (exists a, In a l /\ fst a = fst r) /\ (exists b, In b l /\ snd b = snd r).
Proof.
  intros Hr. unfold collapse_port_list in Hr. apply in_rev in Hr.
  pose proof (fold_ends (fun p => In p l) (py_sorted prange_leb l) []) as H.
  assert (Forall (ends_from (fun p => In p l)) (fold_left collapse_port_step (py_sorted prange_leb l) [])).
  { apply H; [intros p Hp; apply py_sorted_in in Hp; exact Hp|constructor]. }
  rewrite Forall_forall in H0. exact (H0 r Hr).
Qed.

(** No two results touch when no input range ends where a longer one starts. *)
Lemma shape_separated st (src : prange -> Prop) : shape st -> Forall (ends_from src) st ->
  (forall p q, src p -> src q -> snd p <> fst q) ->
  StronglySorted (fun b a => snd a + 1 < fst b) st.
Proof.
  intros Hs He Hne. induction Hs as [|a Ha|a b l Hb Hab Hg Hs IH]; [constructor|constructor; constructor|].
  inversion He as [|? ? Eb He']; subst. specialize (IH He'). constructor; [assumption|].
  inversion He' as [|? ? Ea _]; subst.
  assert (G : snd a + 1 < fst b).
  { destruct Hg as [Hg|Hg]; [|assumption]. exfalso.
    destruct Ea as [_ [p [Sp Ep]]]. destruct Eb as [[q [Sq Eq]] _].
    apply (Hne p q Sp Sq). lia. }
  pose proof (shape_wf _ Hs) as Hw. inversion Hw as [|? ? Hwa _]; subst.
  inversion IH as [|? ? _ Hall]; subst. constructor; [assumption|].
  rewrite Forall_forall in *. intros c Hc. specialize (Hall c Hc). lia.
Qed.

Lemma collapse_ports_separated_partial l : (forall p, In p l -> fst p <= snd p) ->
  (forall p q, In p l -> In q l -> snd p <> fst q) -> separated (collapse_port_list l).
Proof.
  intros H1 H2. unfold separated. rewrite <- (rev_involutive (collapse_port_list l)).
  apply StronglySorted_rev. apply shape_separated with (fun p => In p l).
  - apply collapse_ports_shape; assumption.
  - rewrite Forall_forall. intros r Hr. apply in_rev in Hr. apply collapse_ports_ends. assumption.
  - assumption.
Qed.

(** ** Containment *)
Lemma port_contained_sound sup sub : check_port_is_contained sup sub = true ->
  forall p, ports_match sub p -> ports_match sup p.
Proof.
  intros H p Hp. unfold ports_match in *. destruct sup as [|s sup]; [left; reflexivity|right].
  destruct sub as [|t sub]; [discriminate H|]. destruct Hp as [Hp|[r [Hr Hp]]]; [discriminate Hp|].
  cbn [check_port_is_contained] in H. rewrite forallb_forall in H. specialize (H r Hr).
  apply existsb_exists in H. destruct H as [q [Hq H]]. exists q. split; [assumption|].
  unfold in_range in *. lia.
Qed.

Lemma separated_cover sup : separated sup -> forall x y, x <= y ->
  (forall p, x <= p <= y -> in_ports sup p) ->
  exists q, In q sup /\ fst q <= x /\ y <= snd q.
Proof.
  intros Hs x y Hxy Hc. destruct (Hc x ltac:(lia)) as [q [Hq Hx]].
  exists q. split; [assumption|]. unfold in_range in Hx. split; [lia|].
  destruct (Z_le_gt_dec y (snd q)); [assumption|exfalso].
  destruct (Hc (snd q + 1) ltac:(lia)) as [q' [Hq' Hx']]. unfold in_range in Hx'.
  clear Hc. induction Hs as [|a l Hs IH Ha]; [destruct Hq|]. rewrite Forall_forall in Ha.
  destruct Hq as [<-|Hq], Hq' as [<-|Hq'].
  - lia.
  - specialize (Ha q' Hq'). lia.
  - specialize (Ha q Hq). lia.
  - apply IH; assumption.
Qed.

Lemma port_contained_complete sup sub : sup <> [] -> separated sup -> sub <> [] ->
  (forall r, In r sub -> fst r <= snd r) ->
  (forall p, in_ports sub p -> in_ports sup p) -> check_port_is_contained sup sub = true.
Proof.
  intros Hn Hs Hn' Hw Hc. destruct sup as [|s sup]; [congruence|]. destruct sub as [|t sub]; [congruence|].
  cbn [check_port_is_contained]. apply forallb_forall. intros r Hr. apply existsb_exists.
  destruct (separated_cover _ Hs (fst r) (snd r) (Hw r Hr)) as [q [Hq [H1 H2]]].
  - intros p Hp. apply Hc. exists r. split; [assumption|]. exact Hp.
  - exists q. split; [assumption|]. lia.
Qed.
