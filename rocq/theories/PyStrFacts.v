(** Facts about the string methods of PyStr.v. *)
From Coq Require Import Lia Permutation Sorted.
From Verif Require Import Base SpecBase BaseFacts PyStr.
Local Open Scope string_scope.

Lemma has_char_app c a b : has_char c (a ++ b) = has_char c a || has_char c b.
Proof. induction a as [|d a IH]; simpl; [reflexivity|]. rewrite IH. apply orb_assoc. Qed.

Lemma before_char_app c a b : has_char c a = false ->
  before_char c (a ++ b) = a ++ before_char c b.
Proof.
  induction a as [|d a IH]; simpl; [reflexivity|]. intros H. apply orb_false_iff in H.
  destruct H as [H1 H2]. rewrite H1, IH by assumption. reflexivity.
Qed.
Lemma after_char_app c a b : has_char c a = false ->
  after_char c (a ++ b) = after_char c b.
Proof.
  induction a as [|d a IH]; simpl; [reflexivity|]. intros H. apply orb_false_iff in H.
  destruct H as [H1 H2]. rewrite H1, IH by assumption. reflexivity.
Qed.
Lemma before_char_none c a : has_char c a = false -> before_char c a = a.
Proof.
  intros H. rewrite <- (str_app_nil a) at 1. rewrite before_char_app by assumption. simpl.
  apply str_app_nil.
Qed.
Lemma before_char_has c a : has_char c (before_char c a) = false.
Proof.
  induction a as [|d a IH]; simpl; [reflexivity|]. destruct (Ascii.eqb d c) eqn:E; [reflexivity|].
  simpl. rewrite E. exact IH.
Qed.
Lemma before_after c a : has_char c a = true -> a = before_char c a ++ String c (after_char c a).
Proof.
  induction a as [|d a IH]; simpl; [discriminate|]. destruct (Ascii.eqb d c) eqn:E; simpl.
  - intros _. apply Ascii.eqb_eq in E. congruence.
  - intros H. rewrite <- IH by assumption. reflexivity.
Qed.
Lemma before_char_sub c d a : has_char c (before_char d a) = true -> has_char c a = true.
Proof.
  induction a as [|e a IH]; simpl; [discriminate|]. destruct (Ascii.eqb e d); simpl; [discriminate|].
  intros H. apply orb_true_iff in H. destruct H as [->|H]; [reflexivity|]. rewrite IH by assumption.
  apply orb_true_r.
Qed.

Definition no_ws (s : string) : Prop := forall_char (fun c => negb (is_ws c)) s = true.

Lemma forall_char_app f a b : forall_char f (a ++ b) = forall_char f a && forall_char f b.
Proof. induction a as [|d a IH]; simpl; [reflexivity|]. rewrite IH. apply andb_assoc. Qed.

Lemma lstrip_no_ws s : no_ws s -> lstrip s = s.
Proof.
  unfold no_ws. destruct s as [|c s]; simpl; [reflexivity|]. intros H. apply andb_true_iff in H.
  destruct H as [H _]. destruct (is_ws c); [discriminate|reflexivity].
Qed.
Lemma rstrip_no_ws s : no_ws s -> rstrip s = s.
Proof.
  unfold no_ws. induction s as [|c s IH]; simpl; [reflexivity|]. intros H. apply andb_true_iff in H.
  destruct H as [H1 H2]. rewrite IH by assumption. destruct (is_ws c); [discriminate|reflexivity].
Qed.
Lemma strip_no_ws s : no_ws s -> strip s = s.
Proof. intros H. unfold strip. rewrite lstrip_no_ws by assumption. apply rstrip_no_ws, H. Qed.

(** A trailing space is stripped. *)
Lemma rstrip_app_space s : rstrip (s ++ " ") = rstrip s.
Proof. induction s as [|c s IH]; [reflexivity|]. cbn [rstrip append]. rewrite IH. reflexivity. Qed.
Lemma strip_word_space s : no_ws s -> s <> "" -> strip (s ++ " ") = s.
Proof.
  intros H Hn. unfold strip. destruct s as [|c s]; [congruence|].
  assert (Hc : is_ws c = false).
  { unfold no_ws in H. simpl in H. destruct (is_ws c); [discriminate|reflexivity]. }
  replace (lstrip (String c s ++ " ")) with (String c s ++ " ") by (simpl; rewrite Hc; reflexivity).
  rewrite rstrip_app_space. apply rstrip_no_ws, H.
Qed.

(** Words produced by split(): non-empty, without whitespace, made of characters of [s]. *)
Lemma split_ws_aux_words s : forall cur w, no_ws cur -> In w (split_ws_aux s cur) ->
  w <> "" /\ no_ws w /\ (forall c, has_char c w = true -> has_char c (cur ++ s) = true).
Proof.
  induction s as [|c s IH]; intros cur w Hc Hw; cbn [split_ws_aux] in Hw.
  - destruct cur as [|d cur]; simpl in Hw; [destruct Hw|]. destruct Hw as [<-|[]].
    split; [discriminate|]. split; [assumption|]. intros e He. rewrite str_app_nil. exact He.
  - destruct (is_ws c) eqn:E.
    + destruct cur as [|d cur]; cbn [is_empty] in Hw.
      * destruct (IH "" w eq_refl Hw) as [H1 [H2 H3]]. split; [assumption|]. split; [assumption|].
        intros e He. specialize (H3 e He). simpl in *. rewrite H3. apply orb_true_r.
      * destruct Hw as [<-|Hw].
        -- split; [discriminate|]. split; [assumption|]. intros e He. rewrite has_char_app, He. reflexivity.
        -- destruct (IH "" w eq_refl Hw) as [H1 [H2 H3]]. split; [assumption|]. split; [assumption|].
           intros e He. specialize (H3 e He). rewrite has_char_app. simpl in *. rewrite H3.
           rewrite !orb_true_r. reflexivity.
    + destruct (IH (cur ++ String c "") w) as [H1 [H2 H3]].
      * unfold no_ws. rewrite forall_char_app. simpl. rewrite E. unfold no_ws in Hc. rewrite Hc. reflexivity.
      * exact Hw.
      * split; [assumption|]. split; [assumption|]. intros e He. specialize (H3 e He).
        rewrite str_app_assoc in H3. exact H3.
Qed.
Lemma split_ws_words s w : In w (split_ws s) ->
  w <> "" /\ no_ws w /\ (forall c, has_char c w = true -> has_char c s = true).
Proof. intros H. apply (split_ws_aux_words s "" w eq_refl H). Qed.

Lemma split_ws_aux_word s : forall cur, no_ws s -> cur ++ s <> "" ->
  split_ws_aux s cur = [cur ++ s].
Proof.
  induction s as [|c s IH]; intros cur H Hn; cbn [split_ws_aux].
  - rewrite str_app_nil in *. destruct cur; [congruence|reflexivity].
  - unfold no_ws in H. simpl in H. apply andb_true_iff in H. destruct H as [H1 H2].
    destruct (is_ws c); [discriminate|].
    replace (cur ++ String c s) with ((cur ++ String c "") ++ s) by (rewrite str_app_assoc; reflexivity).
    apply IH; [exact H2|]. destruct cur; discriminate.
Qed.
Lemma split_ws_word s : no_ws s -> s <> "" -> split_ws s = [s].
Proof. intros H Hn. apply (split_ws_aux_word s "" H Hn). Qed.

Lemma split_ws_aux_sep a : forall cur b, no_ws a -> cur ++ a <> "" ->
  split_ws_aux (a ++ String " " b) cur = (cur ++ a) :: split_ws_aux b "".
Proof.
  induction a as [|c a IH]; intros cur b H Hn; cbn [split_ws_aux append].
  - change (is_ws " ") with true. cbv iota. rewrite str_app_nil in *. destruct cur; [congruence|reflexivity].
  - unfold no_ws in H. simpl in H. apply andb_true_iff in H. destruct H as [H1 H2].
    destruct (is_ws c); [discriminate|].
    replace (cur ++ String c a) with ((cur ++ String c "") ++ a) by (rewrite str_app_assoc; reflexivity).
    apply IH; [exact H2|]. destruct cur; discriminate.
Qed.
Lemma split_ws_sep a b : no_ws a -> a <> "" ->
  split_ws (a ++ String " " b) = a :: split_ws b.
Proof. intros H Hn. apply (split_ws_aux_sep a "" b H Hn). Qed.
Lemma split_ws_lead b : split_ws (String " " b) = split_ws b.
Proof. reflexivity. Qed.

(** split(c) *)
Lemma split_char_none c s : has_char c s = false -> split_char c s = [s].
Proof.
  induction s as [|d s IH]; simpl; [reflexivity|]. intros H. apply orb_false_iff in H.
  destruct H as [-> H]. rewrite IH by assumption. reflexivity.
Qed.
Lemma split_char_app c a b : has_char c a = false ->
  split_char c (a ++ String c b) = a :: split_char c b.
Proof.
  induction a as [|d a IH]; simpl; [rewrite Ascii.eqb_refl; reflexivity|]. intros H.
  apply orb_false_iff in H. destruct H as [-> H]. rewrite IH by assumption. reflexivity.
Qed.
Lemma split_char_nonnil c s : split_char c s <> [].
Proof.
  destruct s as [|d s]; simpl; [discriminate|]. destruct (Ascii.eqb d c); [discriminate|].
  destruct (split_char c s); discriminate.
Qed.
Lemma split_char_sub c s : forall w, In w (split_char c s) ->
  has_char c w = false /\ forall e, has_char e w = true -> has_char e s = true.
Proof.
  induction s as [|d s IH]; intros w Hw.
  - simpl in Hw. destruct Hw as [<-|[]]. split; [reflexivity|discriminate].
  - cbn [split_char] in Hw. destruct (Ascii.eqb d c) eqn:E.
    + destruct Hw as [<-|Hw]; [split; [reflexivity|discriminate]|].
      destruct (IH w Hw) as [H1 H2]. split; [assumption|]. intros e He. simpl. rewrite (H2 e He). apply orb_true_r.
    + destruct (split_char c s) as [|v vs] eqn:Es; [destruct (split_char_nonnil c s Es)|].
      destruct Hw as [<-|Hw].
      * destruct (IH v) as [H1 H2]; [left; reflexivity|]. split; [simpl; rewrite E; exact H1|].
        intros e He. simpl in *. apply orb_true_iff in He. destruct He as [->|He]; [reflexivity|].
        rewrite (H2 e He). apply orb_true_r.
      * destruct (IH w) as [H1 H2]; [right; exact Hw|]. split; [assumption|]. intros e He. simpl. rewrite (H2 e He). apply orb_true_r.
Qed.

(** The string order is total, transitive and antisymmetric. *)
Lemma str_leb_total a b : str_leb a b = true \/ str_leb b a = true.
Proof.
  revert b. induction a as [|x a IH]; intros b; [left; reflexivity|].
  destruct b as [|y b]; [right; reflexivity|]. cbn [str_leb].
  destruct (Nat.ltb_spec (nat_of_ascii x) (nat_of_ascii y)); [left; reflexivity|].
  destruct (Nat.ltb_spec (nat_of_ascii y) (nat_of_ascii x)); [right; reflexivity|]. apply IH.
Qed.
Lemma str_leb_trans a b c : str_leb a b = true -> str_leb b c = true -> str_leb a c = true.
Proof.
  revert b c. induction a as [|x a IH]; intros b c; [reflexivity|].
  destruct b as [|y b]; [discriminate|]. destruct c as [|z c]; [intros _ H; exact H|]. cbn [str_leb].
  destruct (Nat.ltb_spec (nat_of_ascii x) (nat_of_ascii y));
  destruct (Nat.ltb_spec (nat_of_ascii y) (nat_of_ascii z));
  destruct (Nat.ltb_spec (nat_of_ascii x) (nat_of_ascii z)); try lia; try reflexivity;
  destruct (Nat.ltb_spec (nat_of_ascii y) (nat_of_ascii x));
  destruct (Nat.ltb_spec (nat_of_ascii z) (nat_of_ascii y));
  destruct (Nat.ltb_spec (nat_of_ascii z) (nat_of_ascii x)); try lia; try discriminate. apply IH.
Qed.
Lemma str_leb_antisym a b : str_leb a b = true -> str_leb b a = true -> a = b.
Proof.
  revert b. induction a as [|x a IH]; intros b; destruct b as [|y b]; cbn [str_leb]; try discriminate; [reflexivity|].
  destruct (Nat.ltb_spec (nat_of_ascii x) (nat_of_ascii y));
  destruct (Nat.ltb_spec (nat_of_ascii y) (nat_of_ascii x)); try lia; try discriminate.
  intros H1 H2. rewrite (IH b H1 H2). f_equal.
  rewrite <- (ascii_nat_embedding x), <- (ascii_nat_embedding y). f_equal. lia.
Qed.

Lemma nodup_str_in x l : In x (nodup_str l) <-> In x l.
Proof.
  induction l as [|y l IH]; cbn [nodup_str In]; [reflexivity|]. destruct (str_in y l) eqn:E; simpl; rewrite IH.
  - apply str_in_spec in E. split; [auto|]. intros [<-|H]; assumption.
  - reflexivity.
Qed.
Lemma nodup_str_nodup l : NoDup (nodup_str l).
Proof.
  induction l as [|y l IH]; cbn [nodup_str]; [constructor|]. destruct (str_in y l) eqn:E; [assumption|].
  constructor; [|assumption]. rewrite nodup_str_in, <- str_in_spec, E. discriminate.
Qed.

(** sorted(set(l)): the same elements, strictly ascending. *)
Definition str_lt (a b : string) : Prop := str_leb a b = true /\ a <> b.
Lemma sorted_set_in x l : In x (sorted_set l) <-> In x l.
Proof. unfold sorted_set. rewrite py_sorted_in. apply nodup_str_in. Qed.
Lemma sorted_set_nodup l : NoDup (sorted_set l).
Proof.
  unfold sorted_set. eapply Permutation_NoDup; [apply Permutation_sym, py_sorted_perm|apply nodup_str_nodup].
Qed.
Lemma sorted_set_sorted l : StronglySorted (fun a b => str_leb a b = true) (sorted_set l).
Proof.
  apply py_sorted_sorted with (P := fun _ => True).
  - intros a b _ _. apply str_leb_total.
  - intros a b c _ _ _. apply str_leb_trans.
  - rewrite Forall_forall. auto.
Qed.
Lemma sorted_set_strict l : StronglySorted str_lt (sorted_set l).
Proof.
  pose proof (sorted_set_sorted l) as S. pose proof (sorted_set_nodup l) as N.
  induction S as [|x r S IH F]; [constructor|]. inversion N as [|? ? Hx Hr]; subst. constructor; [apply IH, Hr|].
  rewrite Forall_forall in *. intros y Hy. split; [apply F, Hy|]. intros ->. contradiction.
Qed.
