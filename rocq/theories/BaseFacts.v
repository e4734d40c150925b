(** Facts about the helpers of Base.v. *)
From Coq Require Import Lia Permutation Sorted.
From Verif Require Import Base SpecBase.

Lemma bind_ok {A B} (m : res A) (f : A -> res B) b :
  bind m f = Ok b -> exists a, m = Ok a /\ f a = Ok b.
Proof. destruct m; simpl; [eauto|discriminate]. Qed.

Section SortFacts.
  Context {A : Type} (leb : A -> A -> bool).

  Lemma insert_perm x l : Permutation (insert leb x l) (x :: l).
  Proof.
    induction l as [|y l IH]; simpl; [constructor; constructor|].
    destruct (leb x y); [apply Permutation_refl|].
    apply perm_trans with (y :: x :: l); [constructor; exact IH|constructor].
  Qed.

  Lemma py_sorted_perm l : Permutation (py_sorted leb l) l.
  Proof.
    induction l as [|x l IH]; simpl; [constructor|].
    apply perm_trans with (x :: py_sorted leb l); [apply insert_perm|constructor; exact IH].
  Qed.

  Lemma py_sorted_in l x : In x (py_sorted leb l) <-> In x l.
  Proof.
    split; apply Permutation_in; [|apply Permutation_sym]; apply py_sorted_perm.
  Qed.

  (** [P] restricts to a domain where [leb] is total and transitive. *)
  Context (P : A -> Prop).
  Hypothesis total : forall a b, P a -> P b -> leb a b = true \/ leb b a = true.
  Hypothesis trans : forall a b c, P a -> P b -> P c ->
    leb a b = true -> leb b c = true -> leb a c = true.
  Let le a b := leb a b = true.

  Lemma insert_sorted x l : P x -> Forall P l ->
    StronglySorted le l -> StronglySorted le (insert leb x l).
  Proof.
    intros Hx Hl Hs. induction Hs as [|y l Hs IH Hy]; simpl.
    - constructor; constructor.
    - inversion Hl as [|? ? Py Pl]; subst. destruct (leb x y) eqn:E.
      + constructor; [constructor; assumption|]. constructor; [exact E|].
        rewrite Forall_forall in *. intros z Hz. apply trans with y; auto. apply Hy; assumption.
      + constructor; [apply IH; assumption|].
        rewrite Forall_forall. intros z Hz.
        apply (Permutation_in _ (insert_perm x l)) in Hz. destruct Hz as [<-|Hz].
        * destruct (total x y); try assumption. congruence.
        * rewrite Forall_forall in Hy. apply Hy; assumption.
  Qed.

  Lemma py_sorted_sorted l : Forall P l -> StronglySorted le (py_sorted leb l).
  Proof.
    induction l as [|x l IH]; simpl; intros Hl; [constructor|].
    inversion Hl; subst. apply insert_sorted; try assumption; [|auto].
    rewrite Forall_forall in *. intros z Hz. apply (proj1 (py_sorted_in l z)) in Hz. auto.
  Qed.
End SortFacts.

Lemma py_sorted_rev_perm {A} (leb : A -> A -> bool) l :
  Permutation (py_sorted_rev leb l) l.
Proof.
  unfold py_sorted_rev.
  apply perm_trans with (py_sorted leb (rev l)); [apply Permutation_sym, Permutation_rev|].
  apply perm_trans with (rev l); [apply py_sorted_perm|apply Permutation_sym, Permutation_rev].
Qed.

(** ** Strings *)

Lemma str_app_assoc (a b c : string) : ((a ++ b) ++ c)%string = (a ++ b ++ c)%string.
Proof. induction a as [|x a IH]; simpl; [reflexivity|]. rewrite IH. reflexivity. Qed.
Lemma str_app_nil (a : string) : (a ++ "")%string = a.
Proof. induction a as [|x a IH]; simpl; [reflexivity|]. rewrite IH. reflexivity. Qed.

Lemma prefix_app s t : String.prefix s t = true <-> exists q, t = (s ++ q)%string.
Proof.
  revert t. induction s as [|x s IH]; intros t; simpl.
  - split; [eauto|]. destruct t; reflexivity.
  - destruct t as [|y t]; simpl.
    + split; [discriminate|]. intros [q Hq]. discriminate.
    + destruct (ascii_dec x y) as [->|Hn].
      * rewrite IH. split; intros [q Hq]; exists q; congruence.
      * split; [discriminate|]. intros [q Hq]. congruence.
Qed.

Lemma substring_of_spec needle hay : substring_of needle hay = true <-> contains hay needle.
Proof.
  induction hay as [|c hay IH]; cbn [substring_of].
  - destruct (String.prefix needle "") eqn:E.
    + split; [|reflexivity]. intros _. apply prefix_app in E. destruct E as [q Hq].
      exists ""%string, q. exact Hq.
    + split; [discriminate|]. intros [p [q Hpq]].
      destruct p; [|discriminate]. simpl in Hpq.
      assert (String.prefix needle "" = true) by (apply prefix_app; eauto). congruence.
  - destruct (String.prefix needle (String c hay)) eqn:E.
    + split; [|reflexivity]. intros _. apply prefix_app in E. destruct E as [q Hq].
      exists ""%string, q. exact Hq.
    + rewrite IH. split.
      * intros [p [q Hpq]]. exists (String c p), q. simpl. congruence.
      * intros [p [q Hpq]]. destruct p as [|d p].
        -- assert (String.prefix needle (String c hay) = true) by (apply prefix_app; eauto).
           congruence.
        -- simpl in Hpq. injection Hpq; intros H1 _. exists p, q. exact H1.
Qed.

Lemma contains_refl s : contains s s.
Proof. exists ""%string, ""%string. simpl. rewrite str_app_nil. reflexivity. Qed.
Lemma contains_trans a b c : contains a b -> contains b c -> contains a c.
Proof.
  intros [p [q ->]] [p' [q' ->]]. exists (p ++ p')%string, (q' ++ q)%string.
  rewrite !str_app_assoc. reflexivity.
Qed.
Lemma contains_empty s : contains s "".
Proof. exists ""%string, s. reflexivity. Qed.

Lemma is_empty_true s : is_empty s = true <-> s = ""%string.
Proof. destruct s; simpl; intuition congruence. Qed.

Lemma str_in_spec s l : str_in s l = true <-> In s l.
Proof.
  unfold str_in, memb. rewrite existsb_exists. split.
  - intros [x [Hx He]]. apply String.eqb_eq in He. congruence.
  - intros H. exists s. split; [assumption|apply String.eqb_refl].
Qed.

(** ** Decimal numerals *)
Local Open Scope Z_scope.

Lemma digit_value_char d : 0 <= d < 10 -> digit_value (digit_char d) = Some d.
Proof.
  intros H. assert (E : exists k : nat, (k < 10)%nat /\ d = Z.of_nat k) by (exists (Z.to_nat d); lia).
  destruct E as [k [Hk ->]]. do 10 (destruct k as [|k]; [reflexivity|]). lia.
Qed.

Lemma digits_value_acc s a b v : digits_value s a = Some v ->
  digits_value s b = Some (v + (b - a) * 10 ^ Z.of_nat (String.length s)).
Proof.
  revert a b v. induction s as [|c s IH]; intros a b v H.
  - cbn [digits_value String.length] in *. injection H as <-. f_equal. rewrite Z.pow_0_r. lia.
  - cbn [digits_value String.length] in *. destruct (digit_value c) as [d|]; [|discriminate].
    rewrite (IH _ (b * 10 + d) _ H). f_equal. rewrite Nat2Z.inj_succ, Z.pow_succ_r by lia. ring.
Qed.

Lemma dec_loop_value : forall fuel n acc a, 0 <= n -> n < 2 ^ Z.of_nat fuel ->
  digits_value acc 0 = Some a ->
  digits_value (dec_loop fuel n acc) 0 = Some (n * 10 ^ Z.of_nat (String.length acc) + a) /\
  dec_loop fuel n acc <> ""%string \/ fuel = O.
Proof.
  induction fuel as [|fuel IH]; intros n acc a Hn Hf Ha; [right; reflexivity|left].
  cbn [dec_loop].
  assert (Hm : 0 <= n mod 10 < 10) by (apply Z.mod_pos_bound; lia).
  assert (Hd : n = 10 * (n / 10) + n mod 10) by (apply Z.div_mod; lia).
  assert (Hq : 0 <= n / 10) by (apply Z.div_pos; lia).
  set (acc' := String (digit_char (n mod 10)) acc).
  assert (Ha' : digits_value acc' 0 = Some (n mod 10 * 10 ^ Z.of_nat (String.length acc) + a)).
  { unfold acc'. cbn [digits_value]. rewrite digit_value_char by assumption.
    rewrite (digits_value_acc acc 0 (0 * 10 + n mod 10) a Ha). f_equal. ring. }
  destruct (n / 10 =? 0) eqn:E.
  - apply Z.eqb_eq in E. split; [|discriminate]. rewrite Ha'. f_equal. rewrite Hd at 2. rewrite E. ring_simplify. reflexivity.
  - apply Z.eqb_neq in E.
    assert (Hf' : n / 10 < 2 ^ Z.of_nat fuel).
    { rewrite Nat2Z.inj_succ, Z.pow_succ_r in Hf by lia. nia. }
    destruct (IH (n / 10) acc' _ Hq Hf' Ha') as [[H1 H2]|H].
    + split; [|assumption]. rewrite H1. f_equal. unfold acc'. cbn [String.length].
      rewrite Nat2Z.inj_succ, Z.pow_succ_r by lia. rewrite Hd at 3. ring.
    + subst fuel. simpl in Hf'. lia.
Qed.

Lemma dec_value n : 0 <= n -> numeral_value (dec n) = Some n.
Proof.
  intros Hn. unfold dec. destruct (n <? 0) eqn:E; [apply Z.ltb_lt in E; lia|].
  destruct (dec_loop_value (S (Z.to_nat (Z.log2 n))) n "" 0 Hn) as [[H1 H2]|H]; [|reflexivity| |discriminate].
  - rewrite Nat2Z.inj_succ, Z2Nat.id by apply Z.log2_nonneg.
    destruct (Z.eq_dec n 0) as [->|Hne]; [reflexivity|]. apply Z.log2_spec. lia.
  - unfold numeral_value. destruct (dec_loop _ n "") eqn:Ed; [congruence|]. rewrite H1. f_equal.
    cbn [String.length]. rewrite Z.pow_0_r. lia.
Qed.

Lemma dec_inj a b : 0 <= a -> 0 <= b -> dec a = dec b -> a = b.
Proof. intros Ha Hb H. pose proof (dec_value a Ha). pose proof (dec_value b Hb). congruence. Qed.
