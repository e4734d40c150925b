(** Proofs about comment wrapping (WrapWords). *)
From Coq Require Import Lia ZifyBool ZifyNat.
From Verif Require Import SpecGen BaseFacts PyStrFacts GenProofs GenProofs2.
Local Open Scope string_scope.
Local Open Scope list_scope.

Definition inky (l : list ascii) : list ascii := filter (fun c => negb (is_ws c)) l.
(** Runs of non-blanks have at least two characters, [m] of the first run already seen. *)
Fixpoint w2 (m : nat) (l : list ascii) : Prop :=
  match l with
  | [] => m <> 1%nat
  | c :: l' => if is_ws c then m <> 1%nat /\ w2 0 l' else w2 (S m) l'
  end.

Lemma w2_more m : forall l, w2 (S (S m)) l -> w2 2 l.
Proof.
  intros l. revert m. induction l as [|c l IH]; intros m H; simpl in *; [lia|].
  destruct (is_ws c); [split; [lia|tauto]|]. 
  assert (forall a b l, w2 (S (S a)) l -> w2 (S (S b)) l) as X.
  { clear. intros a b l. revert a b. induction l as [|c l IH]; intros a b H; simpl in *; [lia|].
    destruct (is_ws c); [split; [lia|tauto]|]. apply (IH (S a) (S b) H). }
  apply (X (S m) 1%nat). exact H.
Qed.
Lemma w2_tail m : forall a b, w2 m (a ++ b) -> blank_or_end b = true -> w2 0 b.
Proof.
  intros a b. revert m. induction a as [|c a IH]; intros m H B; simpl in H.
  - destruct b as [|c b]; simpl in *; [lia|]. rewrite B in *. split; [lia|tauto].
  - destruct (is_ws c); [apply (IH 0%nat); tauto|apply (IH (S m)); tauto].
Qed.
Lemma w2_solid m : forall a b, forallb (fun c => negb (is_ws c)) a = true -> w2 m (a ++ b) -> w2 (List.length a + m) b.
Proof.
  intros a b. revert m. induction a as [|c a IH]; intros m F H; simpl in *; [exact H|].
  apply andb_true_iff in F. destruct F as (F1 & F2). apply negb_true_iff in F1. rewrite F1 in H.
  apply IH in H; [|exact F2]. replace (S (List.length a + m)) with (List.length a + S m)%nat by lia. exact H.
Qed.
Lemma solid_spec n l : solid n l = true <->
  (n <= List.length l)%nat /\ forallb (fun c => negb (is_ws c)) (firstn n l) = true.
Proof.
  unfold solid. rewrite andb_true_iff, Nat.leb_le, firstn_length.
  split; intros [A B]; split; auto; lia.
Qed.
Lemma run_length_le l : (run_length l <= List.length l)%nat.
Proof. induction l as [|c l IH]; simpl; [lia|]. destruct (is_ws c); simpl; lia. Qed.
Lemma run_length_solid l : forallb (fun c => negb (is_ws c)) (firstn (run_length l) l) = true.
Proof. induction l as [|c l IH]; simpl; [reflexivity|]. destruct (is_ws c) eqn:E; simpl; [reflexivity|]. rewrite E. exact IH. Qed.
Lemma run_length_end l : blank_or_end (skipn (run_length l) l) = true.
Proof. induction l as [|c l IH]; simpl; [reflexivity|]. destruct (is_ws c) eqn:E; simpl; auto. Qed.
Lemma run_length_max n : forall l, solid n l = true -> (n <= run_length l)%nat.
Proof.
  intros l H. apply solid_spec in H. revert l H. induction n as [|n IH]; intros l (L & F); [lia|].
  destruct l as [|c l]; simpl in *; [lia|]. apply andb_true_iff in F. destruct F as (F1 & F2).
  apply negb_true_iff in F1. rewrite F1. specialize (IH l ltac:(split; [lia|exact F2])). lia.
Qed.
Lemma solid_run n l : (n <= run_length l)%nat -> solid n l = true.
Proof.
  intros H. apply solid_spec. pose proof (run_length_le l). split; [lia|].
  pose proof (run_length_solid l) as S. revert n l H H0 S. induction n as [|n IH]; intros l H H0 S; [reflexivity|].
  destruct l as [|c l]; simpl in *; [reflexivity|]. destruct (is_ws c) eqn:E; [lia|]. simpl in *. rewrite E in *. simpl in *.
  apply IH; auto; lia.
Qed.

Lemma last_break_spec k l : let j := last_break k l in
  (j <= k)%nat /\ (j <> 0%nat -> (j <= List.length l)%nat /\ forallb (fun c => negb (Ascii.eqb c newline)) (firstn j l) = true /\
                   blank_or_end (skipn j l) = true).
Proof.
  induction k as [|k IH]; cbn [last_break]; [split; [lia|congruence]|].
  destruct ((S k <=? List.length l)%nat && forallb (fun c => negb (Ascii.eqb c newline)) (firstn (S k) l)
            && blank_or_end (skipn (S k) l)) eqn:E.
  - split; [lia|]. intros _. apply andb_true_iff in E. destruct E as (E & B). apply andb_true_iff in E.
    destruct E as (L & N). apply Nat.leb_le in L. auto.
  - destruct IH as (A & B). split; [lia|exact B].
Qed.
Lemma last_break_ge k l j : (1 <= j <= k)%nat -> (j <= List.length l)%nat ->
  forallb (fun c => negb (Ascii.eqb c newline)) (firstn j l) = true -> blank_or_end (skipn j l) = true ->
  (j <= last_break k l)%nat.
Proof.
  intros H L N B. induction k as [|k IH]; [lia|]. cbn [last_break].
  destruct ((S k <=? List.length l)%nat && forallb (fun c => negb (Ascii.eqb c newline)) (firstn (S k) l)
            && blank_or_end (skipn (S k) l)) eqn:E; [lia|].
  assert (j = S k \/ (j <= k)%nat) as [->|D] by lia; [|apply IH; lia].
  assert ((S k <=? List.length l)%nat = true) by (apply Nat.leb_le; exact L).
  rewrite H0, N, B in E. discriminate.
Qed.
Lemma no_newline_solid l : forallb (fun c => negb (is_ws c)) l = true -> forallb (fun c => negb (Ascii.eqb c newline)) l = true.
Proof.
  intros H. rewrite forallb_forall in *. intros c I. specialize (H c I). apply negb_true_iff in H. apply negb_true_iff.
  apply Ascii.eqb_neq. intros ->. discriminate.
Qed.

Lemma solid_not_end n : forall rest, blank_or_end (skipn n rest) = true -> (S n <= List.length rest)%nat ->
  forallb (fun c => negb (is_ws c)) (firstn (S n) rest) = true -> False.
Proof.
  induction n as [|n IH]; intros [|c rest] A L F; cbn [List.length] in L; try lia.
  - cbn in A, F. rewrite A in F. discriminate.
  - change (firstn (S (S n)) (c :: rest)) with (c :: firstn (S n) rest) in F. cbn [forallb] in F.
    apply andb_true_iff in F. apply (IH rest); [exact A|lia|tauto].
Qed.

(** What one match of the expression is. *)
Lemma wrap_match_spec n prev rest : (1 <= n)%nat -> let k := wrap_match n prev rest in
  (k <= n)%nat /\ (k <= List.length rest)%nat /\
  forallb (fun c => negb (Ascii.eqb c newline)) (firstn k rest) = true /\
  (k <> 0%nat -> blank_or_end rest = false).
Proof.
  intros N. unfold wrap_match.
  destruct (solid n rest && negb (blank_or_end (skipn n rest))) eqn:A.
  - apply andb_true_iff in A. destruct A as (S & B). assert (S' := S). apply solid_spec in S. destruct S as (L & F).
    split; [lia|]. split; [exact L|]. split; [apply no_newline_solid; exact F|]. intros _.
    destruct rest as [|c rest]; [simpl in L; lia|]. destruct n as [|n]; [lia|]. simpl in F.
    apply andb_true_iff in F. destruct F as (F & _). apply negb_true_iff in F. exact F.
  - destruct (solid n prev && negb (blank_or_end rest)) eqn:P.
    + apply andb_true_iff in P. destruct P as (_ & P). apply negb_true_iff in P.
      split.
      * destruct (Nat.le_gt_cases (run_length rest) n) as [H|H]; [exact H|exfalso].
        rewrite (solid_run n rest) in A by lia. cbn [andb] in A. apply negb_false_iff in A.
        assert (S : solid (S n) rest = true) by (apply solid_run; lia). apply solid_spec in S. destruct S as (L & F).
        exact (solid_not_end _ _ A L F).
      * split; [apply run_length_le|]. split; [apply no_newline_solid, run_length_solid|auto].
    + destruct rest as [|c tl]; [simpl; repeat split; try lia; congruence|].
      destruct (is_ws c) eqn:W; [simpl; repeat split; try lia; congruence|].
      pose proof (last_break_spec (n - 1) tl) as B. cbn zeta in B. destruct (last_break (n - 1) tl) as [|j].
      * simpl; repeat split; try lia; congruence.
      * destruct B as (B1 & B2). destruct B2 as (B2 & B3 & B4); [lia|]. split; [lia|]. split; [simpl; lia|].
        split; [|intros _; exact W]. change (firstn (S (S j)) (c :: tl)) with (c :: firstn (S j) tl).
        cbn [forallb]. rewrite B3. apply andb_true_iff. split; [|reflexivity]. apply negb_true_iff, Ascii.eqb_neq.
        intros ->. discriminate.
Qed.

Lemma wrap_find_chunks n fuel : (1 <= n)%nat -> forall prev rest ch, In ch (wrap_find fuel n prev rest) ->
  (List.length ch <= n)%nat /\ forallb (fun c => negb (Ascii.eqb c newline)) ch = true /\ blank_or_end ch = false.
Proof.
  intros N. induction fuel as [|fuel IH]; intros prev rest ch I; [destruct I|].
  destruct rest as [|c tl]; [destruct I|]. cbn [wrap_find] in I.
  pose proof (wrap_match_spec n prev (c :: tl) N) as M. cbn zeta in M.
  destruct (wrap_match n prev (c :: tl)) as [|k]; [apply (IH _ _ _ I)|].
  destruct I as [<-|I]; [|apply (IH _ _ _ I)]. destruct M as (M1 & M2 & M3 & M4).
  split; [rewrite firstn_length; lia|]. split; [exact M3|]. specialize (M4 ltac:(lia)). exact M4.
Qed.

Lemma inky_app a b : inky (a ++ b) = inky a ++ inky b.
Proof. apply filter_app. Qed.
Lemma skipn_app_nil {A} (l : list A) k : l = firstn k l ++ skipn k l.
Proof. symmetry. apply firstn_skipn. Qed.
Lemma solid_rev_prev n a prev : forallb (fun c => negb (is_ws c)) a = true -> List.length a = n ->
  solid n (rev a ++ prev) = true.
Proof.
  intros F L. apply solid_spec. split; [rewrite app_length, rev_length; lia|].
  rewrite firstn_app, rev_length, L, Nat.sub_diag, firstn_O, app_nil_r.
  rewrite firstn_all2 by (rewrite rev_length; lia).
  rewrite forallb_forall in *. intros c I. apply F, in_rev. exact I.
Qed.

Lemma wrap_find_keeps n : (2 <= n)%nat -> forall fuel prev rest, (List.length rest <= fuel)%nat ->
  w2 0 rest \/ (solid n prev = true /\ w2 2 rest) ->
  concat (map inky (wrap_find fuel n prev rest)) = inky rest.
Proof.
  intros N. induction fuel as [|fuel IH]; intros prev rest L I.
  { destruct rest; [reflexivity|simpl in L; lia]. }
  destruct rest as [|c tl]; [reflexivity|]. cbn [wrap_find].
  destruct (is_ws c) eqn:W.
  - (* a blank: nothing matches *)
    assert (M : wrap_match n prev (c :: tl) = 0%nat).
    { pose proof (wrap_match_spec n prev (c :: tl) ltac:(lia)) as M. cbn zeta in M.
      destruct (wrap_match n prev (c :: tl)) as [|k]; [reflexivity|].
      destruct M as (_ & _ & _ & M). specialize (M ltac:(lia)). simpl in M. congruence. }
    rewrite M. rewrite IH.
    + unfold inky. cbn [filter]. rewrite W. reflexivity.
    + simpl in L. lia.
    + left. destruct I as [I|(_ & I)]; simpl in I; rewrite W in I; tauto.
  - (* a non-blank: one of the alternatives matches *)
    set (rest := c :: tl) in *.
    assert (R : (1 <= run_length rest)%nat) by (unfold rest; simpl; rewrite W; lia).
    destruct (solid n rest && negb (blank_or_end (skipn n rest))) eqn:A.
    + assert (M : wrap_match n prev rest = n) by (unfold wrap_match; rewrite A; reflexivity).
      rewrite M. destruct n as [|n']; [lia|]. set (n := S n') in *. cbn [map concat].
      apply andb_true_iff in A. destruct A as (S & _). apply solid_spec in S. destruct S as (SL & SF).
      rewrite IH.
      * rewrite <- inky_app. rewrite firstn_skipn. reflexivity.
      * rewrite skipn_length. unfold rest in *. simpl in *. lia.
      * right. split.
        { apply solid_rev_prev; [exact SF|rewrite firstn_length; lia]. }
        assert (X : exists m, w2 m (firstn n rest ++ skipn n rest)).
        { rewrite firstn_skipn. destruct I as [I|(_ & I)]; eauto. }
        destruct X as (m & X). apply w2_solid in X; [|exact SF]. rewrite firstn_length in X.
        replace (Nat.min n (List.length rest) + m)%nat with (S (S (n' - 1 + m)))%nat in X by lia.
        apply w2_more in X. exact X.
    + destruct (solid n prev) eqn:P.
      * assert (M : wrap_match n prev rest = run_length rest).
        { unfold wrap_match. rewrite A, P. unfold rest at 1. cbn [blank_or_end]. rewrite W. reflexivity. }
        rewrite M. destruct (run_length rest) as [|k] eqn:RL; [lia|]. rewrite <- RL. cbn [map concat].
        rewrite IH.
        -- rewrite <- inky_app. rewrite firstn_skipn. reflexivity.
        -- rewrite skipn_length, RL. lia.
        -- left. assert (X : exists m, w2 m (firstn (run_length rest) rest ++ skipn (run_length rest) rest)).
           { rewrite firstn_skipn. destruct I as [I|(_ & I)]; eauto. }
           destruct X as (m & X). apply w2_tail in X; [exact X|apply run_length_end].
      * destruct I as [I|(D & _)]; [|congruence].
        (* a word of at least two and at most n characters *)
        assert (R2 : (2 <= run_length rest)%nat).
        { unfold rest in *. simpl in *. rewrite W in *. destruct tl as [|d tl']; simpl in *; [congruence|].
          destruct (is_ws d); simpl in *; [destruct I; congruence|lia]. }
        assert (RN : (run_length rest <= n)%nat).
        { destruct (Nat.le_gt_cases (run_length rest) n) as [H|H]; [exact H|exfalso].
          rewrite (solid_run n rest) in A by lia. cbn [andb] in A. apply negb_false_iff in A.
          assert (S : solid (S n) rest = true) by (apply solid_run; lia). apply solid_spec in S. destruct S as (SL & SF).
          exact (solid_not_end _ _ A SL SF). }
        assert (LB : (run_length rest - 1 <= last_break (n - 1) tl)%nat).
        { apply last_break_ge.
          - lia.
          - pose proof (run_length_le rest). unfold rest in *. simpl in *. lia.
          - apply no_newline_solid. pose proof (run_length_solid rest) as Sd. unfold rest in Sd.
            destruct (run_length (c :: tl)) as [|q] eqn:Q; [unfold rest in R; lia|].
            change (firstn (S q) (c :: tl)) with (c :: firstn q tl) in Sd. cbn [forallb] in Sd. apply andb_true_iff in Sd.
            unfold rest. rewrite Q. replace (S q - 1)%nat with q by lia. tauto.
          - pose proof (run_length_end rest) as E. unfold rest in E.
            destruct (run_length (c :: tl)) as [|q] eqn:Q; [unfold rest in R; lia|].
            unfold rest. rewrite Q. replace (S q - 1)%nat with q by lia. exact E. }
        pose proof (last_break_spec (n - 1) tl) as B. cbn zeta in B.
        assert (M : wrap_match n prev rest = match last_break (n - 1) tl with O => O | S j => S (S j) end).
        { unfold wrap_match. rewrite A, P. cbn [andb]. unfold rest. rewrite W. reflexivity. }
        rewrite M. destruct (last_break (n - 1) tl) as [|j]; [lia|]. cbn [map concat].
        destruct B as (B1 & B2). destruct B2 as (B2 & B3 & B4); [lia|].
        rewrite IH.
        -- rewrite <- inky_app. rewrite firstn_skipn. reflexivity.
        -- rewrite skipn_length. lia.
        -- left. assert (X : w2 0 (firstn (S (S j)) rest ++ skipn (S (S j)) rest)) by (rewrite firstn_skipn; exact I).
           apply w2_tail in X; [exact X|]. exact B4.
Qed.

(** ** From chunks to lines *)

Lemma split_str_nl s : forall cur, split_str_aux nl s 0 cur =
  match split_char newline s with w :: ws => (cur ++ w)%string :: ws | [] => [] end.
Proof.
  induction s as [|c s IH]; intros cur; cbn [split_str_aux split_char]; [rewrite str_app_nil; reflexivity|].
  assert (P : String.prefix nl (String c s) = Ascii.eqb c newline).
  { unfold nl. cbn [String.prefix]. destruct (ascii_dec newline c) as [<-|N]; [destruct s; reflexivity|].
    symmetry. apply Ascii.eqb_neq. congruence. }
  rewrite P. destruct (Ascii.eqb c newline) eqn:E.
  - cbn [String.length nl Nat.sub]. rewrite str_app_nil. f_equal. rewrite IH.
    pose proof (split_char_nonnil newline s). destruct (split_char newline s) as [|w ws]; [congruence|reflexivity].
  - rewrite IH. pose proof (split_char_nonnil newline s). destruct (split_char newline s) as [|w ws]; [congruence|].
    rewrite str_app_assoc. reflexivity.
Qed.
Lemma split_str_newline s : split_str nl s = split_char newline s.
Proof.
  unfold split_str. rewrite split_str_nl. pose proof (split_char_nonnil newline s).
  destruct (split_char newline s) as [|w ws]; [congruence|reflexivity].
Qed.

(** The first piece starts the text. *)
Lemma pieces_shape c : forall s h t, split_char c s = h :: t ->
  (exists b, s = (h ++ b)%string) /\ has_char c h = false /\
  forall w, In w t -> (exists a b, s = (a ++ w ++ b)%string) /\ has_char c w = false.
Proof.
  induction s as [|d s IH]; intros h t H; cbn [split_char] in H.
  - injection H as <- <-. split; [exists ""; reflexivity|]. split; [reflexivity|]. intros w [].
  - destruct (Ascii.eqb d c) eqn:E.
    + injection H as <- <-. split; [exists (String d s); reflexivity|]. split; [reflexivity|].
      intros w I. destruct (split_char c s) as [|h t] eqn:S; [destruct I|].
      destruct (IH h t eq_refl) as ((b & X) & N & Y). destruct I as [<-|I].
      * split; [|exact N]. exists (String d ""), b. rewrite X at 1. reflexivity.
      * destruct (Y w I) as ((a & b' & Z) & N'). split; [|exact N']. exists (String d a), b'. rewrite Z. reflexivity.
    + destruct (split_char c s) as [|h' t'] eqn:S; [exfalso; exact (split_char_nonnil c s S)|].
      injection H as <- <-. destruct (IH h' t' eq_refl) as ((b & X) & N & Y).
      split; [exists b; rewrite X at 1; reflexivity|]. split; [cbn [has_char]; rewrite E, N; reflexivity|].
      intros w I. destruct (Y w I) as ((a & b' & Z) & N'). split; [|exact N']. exists (String d a), b'. rewrite Z. reflexivity.
Qed.
Lemma piece_infix c s w : In w (split_char c s) -> (exists a b, s = (a ++ w ++ b)%string) /\ has_char c w = false.
Proof.
  destruct (split_char c s) as [|h t] eqn:S; [intros []|]. destruct (pieces_shape c s h t S) as ((b & X) & N & Y).
  intros [<-|I]; [split; [exists "", b; exact X|exact N]|apply Y; exact I].
Qed.
Lemma infix_piece c : forall a w b, has_char c w = false ->
  exists v, In v (split_char c (a ++ w ++ b)%string) /\ (String.length w <= String.length v)%nat.
Proof.
  induction a as [|d a IH]; intros w b H.
  - change ("" ++ w ++ b)%string with (w ++ b)%string. clear - H.
    assert (X : exists v t, split_char c (w ++ b)%string = v :: t /\ (String.length w <= String.length v)%nat).
    { induction w as [|d w IH]; simpl.
      - destruct (split_char c b) as [|v t] eqn:S; [exfalso; exact (split_char_nonnil c b S)|]. exists v, t. split; [reflexivity|lia].
      - cbn [has_char] in H. apply orb_false_iff in H. destruct H as (E & H). rewrite E.
        destruct (IH H) as (v & t & -> & L). exists (String d v), t. split; [reflexivity|simpl; lia]. }
    destruct X as (v & t & -> & L). exists v. split; [left; reflexivity|exact L].
  - destruct (IH w b H) as (v & I & L). cbn [append split_char]. destruct (Ascii.eqb d c).
    + exists v. split; [right; exact I|exact L].
    + destruct (split_char c (a ++ w ++ b)%string) as [|h t]; [destruct I|]. destruct I as [<-|I].
      * exists (String d h). split; [left; reflexivity|simpl; lia].
      * exists v. split; [right; exact I|exact L].
Qed.
Lemma lstrip_infix s : exists a, s = (a ++ lstrip s)%string.
Proof.
  induction s as [|c s (a & IH)]; [exists ""; reflexivity|]. cbn [lstrip]. destruct (is_ws c).
  - exists (String c a). simpl. rewrite <- IH. reflexivity.
  - exists "". reflexivity.
Qed.
Lemma rstrip_infix s : exists b, s = (rstrip s ++ b)%string.
Proof.
  induction s as [|c s (b & IH)]; [exists ""; reflexivity|]. cbn [rstrip]. destruct (is_ws c && is_empty (rstrip s)) eqn:E.
  - exists (String c s). reflexivity.
  - exists b. simpl. rewrite <- IH. reflexivity.
Qed.
Lemma strip_infix s : exists a b, s = (a ++ strip s ++ b)%string.
Proof.
  unfold strip. destruct (lstrip_infix s) as (a & A). destruct (rstrip_infix (lstrip s)) as (b & B).
  exists a, b. rewrite <- B. exact A.
Qed.
Lemma strip_length s : (String.length (strip s) <= String.length s)%nat.
Proof.
  destruct (strip_infix s) as (a & b & E). apply (f_equal String.length) in E. rewrite !length_app in E. lia.
Qed.
Lemma strip_pieces c s w : In w (split_char c (strip s)) ->
  exists v, In v (split_char c s) /\ (String.length w <= String.length v)%nat.
Proof.
  intros I. apply piece_infix in I. destruct I as ((x & y & E) & N). destruct (strip_infix s) as (a & b & S).
  rewrite E in S. replace (a ++ (x ++ w ++ y) ++ b)%string with ((a ++ x) ++ w ++ (y ++ b))%string in S
    by (rewrite !str_app_assoc; reflexivity).
  rewrite S. apply infix_piece. exact N.
Qed.

Lemma la_app a b : list_ascii_of_string (a ++ b)%string = list_ascii_of_string a ++ list_ascii_of_string b.
Proof. induction a as [|c a IH]; simpl; [reflexivity|]. rewrite IH. reflexivity. Qed.
Lemma la_inv l : list_ascii_of_string (string_of_list_ascii l) = l.
Proof. induction l as [|c l IH]; simpl; [reflexivity|]. rewrite IH. reflexivity. Qed.
Lemma la_length s : List.length (list_ascii_of_string s) = String.length s.
Proof. induction s as [|c s IH]; simpl; [reflexivity|]. rewrite IH. reflexivity. Qed.
Lemma sl_length l : String.length (string_of_list_ascii l) = List.length l.
Proof. induction l as [|c l IH]; simpl; [reflexivity|]. rewrite IH. reflexivity. Qed.
Lemma has_char_la c l : has_char c (string_of_list_ascii l) = negb (forallb (fun d => negb (Ascii.eqb d c)) l).
Proof.
  induction l as [|d l IH]; simpl; [reflexivity|]. rewrite IH. destruct (Ascii.eqb d c); reflexivity.
Qed.
Lemma split_join l : l <> [] -> (forall w, In w l -> has_char newline w = false) -> split_char newline (join nl l) = l.
Proof.
  induction l as [|w l IH]; intros N H; [congruence|]. destruct l as [|w' l].
  - apply split_char_none. apply H. left. reflexivity.
  - change (join nl (w :: w' :: l)) with (w ++ String newline (join nl (w' :: l)))%string.
    rewrite split_char_app by (apply H; left; reflexivity). f_equal.
    apply IH; [discriminate|]. intros x I. apply H. right. exact I.
Qed.

Lemma wrap_text_pieces n s w : (1 <= n)%nat -> In w (split_char newline (wrap_text n nl s)) -> (String.length w <= n)%nat.
Proof.
  intros N I. unfold wrap_text in I. destruct (n <? String.length s)%nat eqn:L.
  - set (ch := wrap_find (String.length s) n [] (list_ascii_of_string s)) in *.
    destruct ch as [|c0 ch0] eqn:E.
    + simpl in I. destruct I as [<-|[]]. simpl. lia.
    + rewrite <- E in I. rewrite split_join in I.
      * apply in_map_iff in I. destruct I as (x & <- & I). rewrite sl_length. unfold ch in I.
        apply wrap_find_chunks in I; [|exact N]. tauto.
      * rewrite E. discriminate.
      * intros v J. apply in_map_iff in J. destruct J as (x & <- & J). unfold ch in J.
        apply wrap_find_chunks in J; [|exact N]. destruct J as (_ & F & _). rewrite has_char_la, F. reflexivity.
  - apply piece_infix in I. destruct I as ((a & b & E) & _). apply (f_equal String.length) in E. rewrite !length_app in E.
    apply Nat.ltb_ge in L. lia.
Qed.
Lemma wrap_words_fit l n line : (1 <= n)%nat -> In line (wrap_words l n nl) -> (String.length line <= n)%nat.
Proof.
  intros N I. unfold wrap_words in I. apply in_flat_map in I. destruct I as (s & _ & I).
  apply in_map_iff in I. destruct I as (x & <- & I). apply filter_In in I. destruct I as (I & _).
  rewrite split_str_newline in I. apply strip_pieces in I. destruct I as (v & I & L).
  apply wrap_text_pieces in I; [|exact N]. pose proof (strip_length x). lia.
Qed.

(** ** Nothing is lost *)

Lemma ink_app a b : ink (a ++ b)%string = ink a ++ ink b.
Proof. unfold ink. rewrite la_app. apply filter_app. Qed.
Lemma ink_lstrip s : ink (lstrip s) = ink s.
Proof.
  induction s as [|c s IH]; [reflexivity|]. cbn [lstrip]. destruct (is_ws c) eqn:E; [|reflexivity].
  rewrite IH. unfold ink. cbn [list_ascii_of_string filter]. rewrite E. reflexivity.
Qed.
Lemma ink_rstrip s : ink (rstrip s) = ink s.
Proof.
  induction s as [|c s IH]; [reflexivity|]. cbn [rstrip].
  destruct (is_ws c && is_empty (rstrip s)) eqn:E.
  - apply andb_true_iff in E. destruct E as (W & E). apply is_empty_true in E. rewrite E in IH.
    unfold ink in *. cbn [list_ascii_of_string filter]. rewrite W. cbn [negb]. rewrite <- IH. reflexivity.
  - unfold ink in *. cbn [list_ascii_of_string filter]. rewrite IH. reflexivity.
Qed.
Lemma ink_strip s : ink (strip s) = ink s.
Proof. unfold strip. rewrite ink_rstrip. apply ink_lstrip. Qed.
Lemma ink_split s : concat (map ink (split_char newline s)) = ink s.
Proof.
  induction s as [|c s IH]; [reflexivity|]. cbn [split_char]. destruct (Ascii.eqb c newline) eqn:E.
  - apply Ascii.eqb_eq in E. subst c. cbn [map concat]. rewrite IH. reflexivity.
  - destruct (split_char newline s) as [|w ws] eqn:S; [exfalso; exact (split_char_nonnil _ _ S)|].
    cbn [map concat] in *. unfold ink in *. cbn [list_ascii_of_string filter]. destruct (negb (is_ws c)).
    + rewrite <- IH. reflexivity.
    + exact IH.
Qed.
Lemma ink_join l : ink (join nl l) = concat (map ink l).
Proof.
  induction l as [|w l IH]; [reflexivity|]. destruct l as [|w' l].
  - cbn [join map concat]. rewrite app_nil_r. reflexivity.
  - change (join nl (w :: w' :: l)) with (w ++ (nl ++ join nl (w' :: l)))%string. rewrite ink_app, ink_app, IH. reflexivity.
Qed.
Lemma words_w2 : forall s cur, (forall w, In w (split_ws_aux s cur) -> (2 <= String.length w)%nat) ->
  w2 (String.length cur) (list_ascii_of_string s).
Proof.
  induction s as [|c s IH]; intros cur H; cbn [split_ws_aux list_ascii_of_string w2] in *.
  - destruct (is_empty cur) eqn:E; [apply is_empty_true in E; subst; simpl; lia|].
    specialize (H cur (or_introl eq_refl)). lia.
  - destruct (is_ws c).
    + destruct (is_empty cur) eqn:E.
      * apply is_empty_true in E. subst. split; [simpl; lia|]. apply (IH ""). exact H.
      * split; [specialize (H cur (or_introl eq_refl)); lia|]. apply (IH ""). intros w I. apply H. right. exact I.
    + specialize (IH (cur ++ String c "")%string H). rewrite length_app in IH. simpl in IH.
      replace (String.length cur + 1)%nat with (S (String.length cur)) in IH by lia. exact IH.
Qed.
Lemma wrap_text_ink n s : (2 <= n)%nat -> (forall w, In w (split_ws s) -> (2 <= String.length w)%nat) ->
  ink (wrap_text n nl s) = ink s.
Proof.
  intros N H. unfold wrap_text. destruct (n <? String.length s)%nat; [|reflexivity].
  rewrite ink_join, map_map.
  rewrite (map_ext _ inky) by (intros l; unfold ink, inky; rewrite la_inv; reflexivity).
  apply wrap_find_keeps; [exact N|rewrite la_length; lia|]. left. exact (words_w2 s "" H).
Qed.
Lemma ink_lines l : concat (map ink (map strip (filter (fun x => negb (is_empty x)) l))) = concat (map ink l).
Proof.
  induction l as [|x l IH]; [reflexivity|]. cbn [filter map concat]. destruct (is_empty x) eqn:E; cbn [negb map concat].
  - apply is_empty_true in E. subst. exact IH.
  - rewrite ink_strip, IH. reflexivity.
Qed.
Lemma wrap_words_ink n l : (2 <= n)%nat ->
  (forall s w, In s l -> In w (split_ws s) -> (2 <= String.length w)%nat) ->
  concat (map ink (wrap_words l n nl)) = concat (map ink l).
Proof.
  intros N. induction l as [|s l IH]; intros H; [reflexivity|]. unfold wrap_words in *. cbn [flat_map map concat].
  rewrite map_app, concat_app, IH by (intros x w I J; apply (H x w); [right; exact I|exact J]). f_equal.
  rewrite ink_lines, split_str_newline, ink_split, ink_strip. apply wrap_text_ink; [exact N|].
  intros w I. apply (H s w); [left; reflexivity|exact I].
Qed.
