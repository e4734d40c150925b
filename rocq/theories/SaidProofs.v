(** Proofs that parsed terms mean what the text says. *)
From Coq Require Import Lia ZifyBool ZifyNat.
From Verif Require Import SpecSaid BaseFacts PortNameProofs GenProofs ParseProofs BuildSteps BuildProofs LexProofs PolicyProofs.
Local Open Scope string_scope.
Local Open Scope list_scope.
Local Open Scope Z_scope.

(** ** Dates *)

Lemma is_leap_spec y : is_leap y = true <-> leap_year y.
Proof.
  unfold is_leap, leap_year. rewrite <- !Z.mod_divide by lia.
  destruct (Z.eqb_spec (y mod 4) 0), (Z.eqb_spec (y mod 100) 0), (Z.eqb_spec (y mod 400) 0); cbn; intuition lia.
Qed.
Lemma days_in_month_spec y m d : 1 <= m <= 12 -> 1 <= d ->
  (d <= days_in_month y m <-> d <= 31 /\ (m = 4 \/ m = 6 \/ m = 9 \/ m = 11 -> d <= 30) /\
     (m = 2 -> d <= 29 /\ (~ leap_year y -> d <= 28))).
Proof.
  intros Hm Hd. unfold days_in_month.
  assert (C : m = 1 \/ m = 2 \/ m = 3 \/ m = 4 \/ m = 5 \/ m = 6 \/ m = 7 \/ m = 8 \/ m = 9 \/ m = 10 \/ m = 11 \/ m = 12) by lia.
  pose proof (is_leap_spec y) as L. destruct (is_leap y).
  - assert (leap_year y) by (now apply L).
    destruct C as [->|[->|[->|[->|[->|[->|[->|[->|[->|[->|[->| ->]]]]]]]]]]]; cbn; split; try lia; intros; try (repeat split; intros; try lia; tauto).
  - assert (~ leap_year y) by (intros X; apply L in X; discriminate).
    destruct C as [->|[->|[->|[->|[->|[->|[->|[->|[->|[->|[->| ->]]]]]]]]]]]; cbn; split; try lia; intros; try (repeat split; intros; try lia; tauto).
Qed.
Lemma date_ordinal_ok y m d : (exists n, date_ordinal y m d = Ok n) <-> calendar_day y m d.
Proof.
  unfold date_ordinal, calendar_day.
  destruct ((1 <=? y) && (y <=? 9999) && (1 <=? m) && (m <=? 12) && (1 <=? d)) eqn:E.
  - rewrite andb_true_l. pose proof (days_in_month_spec y m d ltac:(lia) ltac:(lia)) as S.
    destruct (d <=? days_in_month y m) eqn:E2.
    + split; [intros _|intros _; eauto]. assert (d <= days_in_month y m) by lia. rewrite S in H. intuition lia.
    + split; [intros [n H]; discriminate|]. intros H. exfalso. assert (d <= days_in_month y m) by (apply S; tauto). lia.
  - rewrite andb_false_l. split; [intros [n H]; discriminate|]. intros H. lia.
Qed.
Lemma date_ordinal_bounds y m d n : date_ordinal y m d = Ok n ->
  1 <= y <= 9999 /\ 1 <= m <= 12 /\ 1 <= d <= days_in_month y m /\
  n = days_before_year y + days_before_month y m + d.
Proof. unfold date_ordinal. match goal with |- (if ?b then _ else _) = _ -> _ => destruct b eqn:E end; [|discriminate]. intros H. injection H as <-. lia. Qed.
Lemma days_before_month_step y m : 1 <= m <= 11 -> days_before_month y (m + 1) = days_before_month y m + days_in_month y m.
Proof.
  intros H.
  assert (C : m = 1 \/ m = 2 \/ m = 3 \/ m = 4 \/ m = 5 \/ m = 6 \/ m = 7 \/ m = 8 \/ m = 9 \/ m = 10 \/ m = 11) by lia.
  destruct C as [->|[->|[->|[->|[->|[->|[->|[->|[->|[->| ->]]]]]]]]]];
    unfold days_before_month, days_in_month; cbn [seq map fold_right]; destruct (is_leap y); reflexivity.
Qed.
Lemma days_in_month_pos y m : 28 <= days_in_month y m <= 31.
Proof. unfold days_in_month. destruct (m =? 2); [destruct (is_leap y); lia|]. destruct (memb _ _ _); lia. Qed.
Lemma days_before_month_mono y m m' : 1 <= m -> m < m' -> m' <= 12 ->
  days_before_month y m + days_in_month y m <= days_before_month y m'.
Proof.
  intros H1 H2 H3. assert (G : forall k : nat, m + 1 + Z.of_nat k <= 12 ->
    days_before_month y m + days_in_month y m <= days_before_month y (m + 1 + Z.of_nat k)).
  { induction k as [|k IH]; intros Hk.
    - rewrite Z.add_0_r, days_before_month_step by lia. lia.
    - replace (m + 1 + Z.of_nat (S k)) with (m + 1 + Z.of_nat k + 1) by lia.
      rewrite days_before_month_step by lia. pose proof (days_in_month_pos y (m + 1 + Z.of_nat k)). lia. }
  specialize (G (Z.to_nat (m' - m - 1))). replace (m + 1 + Z.of_nat (Z.to_nat (m' - m - 1))) with m' in G by lia. apply G. lia.
Qed.
Lemma days_before_month_1 y : days_before_month y 1 = 0.
Proof. reflexivity. Qed.
Lemma days_before_year_step y : days_before_month y 12 + 31 <= days_before_year (y + 1) - days_before_year y.
Proof.
  assert (E : days_before_month y 12 = if is_leap y then 335 else 334).
  { unfold days_before_month, days_in_month. cbn [seq map fold_right]. destruct (is_leap y); reflexivity. }
  rewrite E. unfold days_before_year. cbv zeta. replace (y + 1 - 1) with y by lia. unfold is_leap.
  destruct (Z.eqb_spec (y mod 4) 0), (Z.eqb_spec (y mod 100) 0), (Z.eqb_spec (y mod 400) 0); cbn [andb orb negb]; Z.to_euclidean_division_equations; lia.
Qed.
Lemma days_before_year_mono y y' : y < y' -> days_before_year y + days_before_month y 12 + 31 <= days_before_year y'.
Proof.
  intros H. assert (G : forall k : nat, days_before_year y + days_before_month y 12 + 31 <= days_before_year (y + 1 + Z.of_nat k)).
  { induction k as [|k IH].
    - rewrite Z.add_0_r. pose proof (days_before_year_step y). lia.
    - pose proof (days_before_year_step (y + 1 + Z.of_nat k)) as St.
      assert (0 <= days_before_month (y + 1 + Z.of_nat k) 12).
      { unfold days_before_month, days_in_month. cbn [seq map fold_right]. destruct (is_leap _); vm_compute; discriminate. }
      replace (y + 1 + Z.of_nat (S k)) with (y + 1 + Z.of_nat k + 1) by lia. lia. }
  specialize (G (Z.to_nat (y' - y - 1))). replace (y + 1 + Z.of_nat (Z.to_nat (y' - y - 1))) with y' in G by lia. exact G.
Qed.
Lemma days_before_month_nonneg y m : 1 <= m <= 12 -> 0 <= days_before_month y m.
Proof.
  intros H. destruct (Z.eq_dec m 1) as [->|]; [rewrite days_before_month_1; lia|].
  pose proof (days_before_month_mono y 1 m ltac:(lia) ltac:(lia) ltac:(lia)) as G.
  rewrite days_before_month_1 in G. pose proof (days_in_month_pos y 1). lia.
Qed.
Lemma date_ordinal_earlier y m d n y' m' d' n' : date_ordinal y m d = Ok n -> date_ordinal y' m' d' = Ok n' ->
  earlier_day (y, m, d) (y', m', d') -> n < n'.
Proof.
  intros H H' E. apply date_ordinal_bounds in H, H'. destruct H as (Y & M & D & ->), H' as (Y' & M' & D' & ->).
  unfold earlier_day in E. destruct E as [E|[<- [E|[<- E]]]].
  - pose proof (days_before_year_mono y y' E). pose proof (days_before_month_nonneg y' m' M').
    assert (days_before_month y m + days_in_month y m <= days_before_month y 12 + 31).
    { destruct (Z.eq_dec m 12) as [->|]; [cbn [days_in_month]; unfold days_in_month; cbn; lia|].
      pose proof (days_before_month_mono y m 12 ltac:(lia) ltac:(lia) ltac:(lia)). lia. }
    lia.
  - pose proof (days_before_month_mono y m m' ltac:(lia) E ltac:(lia)). lia.
  - lia.
Qed.
Lemma date_ordinal_order y m d n y' m' d' n' : date_ordinal y m d = Ok n -> date_ordinal y' m' d' = Ok n' ->
  (n < n' <-> earlier_day (y, m, d) (y', m', d')).
Proof.
  intros H H'. split; [|now apply date_ordinal_earlier]. intros L.
  assert (T : earlier_day (y, m, d) (y', m', d') \/ (y, m, d) = (y', m', d') \/ earlier_day (y', m', d') (y, m, d)).
  { unfold earlier_day. destruct (Z.lt_total y y') as [?|[->|?]]; [lia| |lia].
    destruct (Z.lt_total m m') as [?|[->|?]]; [lia| |lia]. destruct (Z.lt_total d d') as [?|[->|?]]; [lia|tauto|lia]. }
  destruct T as [T|[T|T]]; [exact T| |].
  - injection T as -> -> ->. rewrite H in H'. injection H' as <-. lia.
  - pose proof (date_ordinal_earlier _ _ _ _ _ _ _ _ H' H T). lia.
Qed.

(** ** Which statements are accepted *)

Lemma mapM_found lookup l : (exists nets, mapM lookup l = Ok nets) <-> Forall (found lookup) l.
Proof.
  split.
  - intros [nets H]. revert nets H. induction l as [|w l IH]; intros nets H; [constructor|]. cbn [mapM] in H.
    destruct (lookup w) as [a|] eqn:E; [|discriminate]. cbn [bind] in H.
    destruct (mapM lookup l) as [b|]; [|discriminate]. constructor; [exists a; exact E|eauto].
  - induction 1 as [|w l [a E] H [b IH]]; [exists []; reflexivity|]. exists (a :: b). cbn [mapM]. rewrite E, IH. reflexivity.
Qed.
Lemma in_perm_actions v : In v actions <-> In v ["accept"; "deny"; "reject"; "reject-with-tcp-rst"; "next"; "count"].
Proof. unfold actions. cbn. tauto. Qed.

Ltac no_case := cbn [fst snd]; intros; repeat match goal with
  | |- _ /\ _ => split
  | H : _ \/ _ |- _ => destruct H
  | H : _ = _ :> string |- _ => discriminate H
  | H : False |- _ => destruct H
  | |- _ -> _ => intros
  end.

Section Accept.
  Context (lookup : string -> res (list net)).

  Lemma add_object_fits s p p' : add_object lookup s p = Ok p' -> fits lookup s.
  Proof.
    revert s p'. apply (add_object_cases lookup (fun s _ _ => fits lookup s)); unfold fits; cbn [fst snd]; intros; try exact Logic.I.
    - apply mapM_found. eauto.
    - exfalso. apply assoc_in in H. cbn [map fst networks In] in H0.
      repeat (destruct H as [H|H]; [apply pair_equal_spec in H; destruct H as [<- _]; revert H0; clear; intuition discriminate|]).
      destruct H.
    - exfalso. revert H. clear. cbn. intuition discriminate.
    - exfalso. revert H. clear. cbn. intuition discriminate.
    - exfalso. revert H. clear. cbn. intuition discriminate.
    - exfalso. destruct (p_extra p). cbn [extra_list] in H. apply assoc_in in H. cbn [map fst networks In] in H0.
      repeat (destruct H as [H|H]; [apply pair_equal_spec in H; destruct H as [<- _]; revert H0; clear; intuition discriminate|]).
      destruct H.
    - apply assoc_in in H.
      repeat (destruct H as [H|H]; [apply pair_equal_spec in H; destruct H as [<- _]; clear; intuition discriminate|]).
      destruct H.
    - clear. intuition discriminate.
    - split; [|intuition discriminate]. intros _. eexists; eassumption.
    - apply in_perm_actions in H. revert H. clear. intuition discriminate.
    - revert H. clear. intuition discriminate.
    - repeat split; try (intros; discriminate). intros _. eauto.
    - repeat split; try (intros; discriminate). intros _. eauto.
    - destruct (p_extra p). cbn [extra_text] in H. apply assoc_in in H.
      repeat (destruct H as [H|H]; [apply pair_equal_spec in H; destruct H as [<- _]; clear; intuition discriminate|]).
      destruct H.
    - discriminate.
    - assumption.
    - apply date_ordinal_ok. eauto.
  Qed.

  Ltac key H := cbn [takes In] in H; repeat (destruct H as [H|H]; [subst|]); [..|destruct H].
  Lemma fits_add_object ts s p : stmt_tokens takes ts s -> fits lookup s -> exists p', add_object lookup s p = Ok p'.
  Proof.
    intros [k sh vt v Hk Hv] F. unfold fits in F. cbn [fst snd] in F.
    destruct p as [[? ? ? ?] []].
    destruct sh; key Hk; inversion Hv; subst; clear Hv; cbn [snd] in F;
      try (eexists; reflexivity);
      try (assert (N : exists nets, mapM lookup l = Ok nets) by (apply mapM_found; apply F; apply str_in_spec; reflexivity);
           destruct N as [nets N]; unfold add_object; cbn [fst snd]; eexists; cbn [address_field assoc String.eqb Ascii.eqb Bool.eqb];
           rewrite N; reflexivity).
    - destruct F as (_ & F & _). apply in_perm_actions, str_in_spec in F; [|reflexivity].
      unfold add_object. cbn -[str_in actions]. rewrite F. eexists. reflexivity.
    - destruct F as (_ & _ & F & _). specialize (F eq_refl). apply str_in_spec in F. match type of F with str_in ?w _ = _ => change (str_in w logging_values = true) in F end.
      unfold add_object. cbn -[str_in logging_values]. rewrite F. eexists. reflexivity.
    - destruct F as (F & _). destruct (F eq_refl) as [nets N]. unfold add_object. cbn. rewrite N. eexists. reflexivity.
    - destruct F as (_ & _ & _ & F). destruct F as [n N]; [auto|]. apply py_int_numeral in N.
      unfold add_object. cbn -[py_int]. rewrite N. eexists. reflexivity.
    - destruct F as (_ & _ & _ & F). destruct F as [n N]; [auto|]. apply py_int_numeral in N.
      unfold add_object. cbn -[py_int]. rewrite N. eexists. reflexivity.
    - destruct l as [|z l]; [destruct (F eq_refl eq_refl)|]. eexists. reflexivity.
    - apply date_ordinal_ok in F. destruct F as [n N]. unfold add_object. cbn -[date_ordinal]. rewrite N. eexists. reflexivity.
  Qed.

  Lemma adds_fits ts l : stmts_tokens takes ts l -> forall p,
    (exists p', add_objects lookup l p = Ok p') <-> Forall (fits lookup) l.
  Proof.
    induction 1 as [|ts s ts' l Hs H IH]; intros p; cbn [add_objects].
    - split; [constructor|eauto].
    - split.
      + intros [p' E]. destruct (add_object lookup s p) as [q|] eqn:Eq; [|discriminate]. cbn [bind] in E.
        constructor; [eapply add_object_fits; exact Eq|]. apply (IH q). eauto.
      + intros F. inversion F as [|? ? F1 F2]; subst. destruct (fits_add_object _ _ p Hs F1) as [q Eq].
        rewrite Eq. cbn [bind]. now apply IH.
  Qed.
  Lemma build_fits ts name l : stmts_tokens takes ts l ->
    ((exists p, build_term lookup (name, l) = Ok p) <-> l <> [] /\ Forall (fits lookup) l).
  Proof.
    intros H. unfold build_term. cbn [fst snd]. destruct l as [|s l].
    - split; [intros [p E]; discriminate|intros [E _]; destruct (E eq_refl)].
    - rewrite (adds_fits _ _ H). split; [intros F; split; [discriminate|exact F]|tauto].
  Qed.
End Accept.
