(** Proofs about quoted texts. *)
From Coq Require Import Lia ZifyBool ZifyNat.
From Verif Require Import SpecSaid BaseFacts LexProofs.
Local Open Scope list_scope.
Local Open Scope string_scope.

Lemma rstrip_dq_snoc s : rstrip_dq (s ++ """") = rstrip_dq s.
Proof.
  induction s as [|c s IH]; [reflexivity|]. cbn [append rstrip_dq]. rewrite IH. reflexivity.
Qed.
Lemma rstrip_dq_id s : ends_with """" s = false -> rstrip_dq s = s.
Proof.
  induction s as [|c s IH]; intros H; [reflexivity|]. cbn [rstrip_dq].
  destruct s as [|d s].
  - cbn in H. cbn. unfold quote. rewrite H. reflexivity.
  - rewrite IH by exact H. cbn [is_empty]. rewrite andb_false_r. reflexivity.
Qed.
Lemma strip_in_quotes s : lstrip_dq s = s -> ends_with """" s = false -> strip_dq (in_quotes s) = s.
Proof.
  intros H1 H2. unfold strip_dq, in_quotes. change (lstrip_dq ("""" ++ s ++ """")) with (lstrip_dq (s ++ """")).
  assert (E : rstrip_dq (lstrip_dq (s ++ """")) = rstrip_dq s).
  { destruct s as [|c s]; [reflexivity|]. cbn [append lstrip_dq] in *. destruct (Ascii.eqb c quote) eqn:Eq.
    - exfalso. assert (L : forall u, (String.length (lstrip_dq u) <= String.length u)%nat).
      { induction u as [|x u IHu]; cbn; [lia|]. destruct (Ascii.eqb x quote); cbn; lia. }
      specialize (L s). rewrite H1 in L. cbn in L. lia.
    - change (String c (s ++ """")) with (String c s ++ """"). now rewrite rstrip_dq_snoc. }
  rewrite E. now apply rstrip_dq_id.
Qed.
Lemma no_quote_ends s : has_char """" s = false -> ends_with """" s = false.
Proof.
  induction s as [|c s IH]; intros H; [reflexivity|]. cbn [has_char] in H. apply orb_false_iff in H. destruct H as [H1 H2].
  cbn [ends_with]. destruct s; [|auto]. rewrite Ascii.eqb_sym. rewrite Ascii.eqb_sym. first [exact H1 | rewrite Ascii.eqb_sym; exact H1].
Qed.
Lemma no_quote_starts s : has_char """" s = false -> lstrip_dq s = s.
Proof.
  destruct s as [|c s]; intros H; [reflexivity|]. cbn [has_char] in H. apply orb_false_iff in H. destruct H as [H1 _].
  cbn [lstrip_dq]. unfold quote. first [rewrite H1; reflexivity | rewrite Ascii.eqb_sym, H1; reflexivity].
Qed.
Theorem comment_of_quoted s : has_char """" s = false ->
  comment_value (in_quotes s) = join (String "010" "") (map lstrip (splitlines s)).
Proof. intros H. unfold comment_value. rewrite strip_in_quotes by (auto using no_quote_starts, no_quote_ends). reflexivity. Qed.

Lemma escape_head s : match escape s with String c _ => Ascii.eqb c """" = false | EmptyString => True end.
Proof. destruct s as [|c s]; cbn [escape]; [exact Logic.I|]. destruct (Ascii.eqb c """") eqn:E; [reflexivity|exact E]. Qed.
Lemma unescape_skip c s : match s with String d _ => Ascii.eqb d """" = false | EmptyString => True end ->
  unescape (String c s) = String c (unescape s).
Proof.
  intros H. destruct s as [|d s].
  - destruct (Ascii.eqb_spec c "\") as [->|N]; [reflexivity|]. chars c; reflexivity.
  - destruct (Ascii.eqb_spec d """") as [->|N]; [discriminate H|]. clear H.
    assert (G : forall x y r, y <> """"%char -> unescape (String x (String y r)) = String x (unescape (String y r))).
    { clear. intros x y r N. cbn [unescape]. destruct x as [[] [] [] [] [] [] [] []]; try reflexivity.
      destruct y as [[] [] [] [] [] [] [] []]; try reflexivity. destruct (N eq_refl). }
    now apply G.
Qed.
Lemma unescape_quote s : unescape (String "\" (String """" s)) = String """" (unescape s).
Proof. reflexivity. Qed.
Lemma unescape_escape s : unescape (escape s) = s.
Proof.
  induction s as [|c s IH]; [reflexivity|]. cbn [escape]. destruct (Ascii.eqb_spec c """") as [->|N].
  - rewrite unescape_quote, IH. reflexivity.
  - rewrite unescape_skip by apply escape_head. now rewrite IH.
Qed.
Lemma escape_ends s : ends_with """" (escape s) = ends_with """" s.
Proof.
  induction s as [|c s IH]; [reflexivity|]. cbn [escape]. destruct (Ascii.eqb_spec c """") as [->|N].
  - destruct s as [|d s]; [reflexivity|].
    change (ends_with """" (String """" (String d s))) with (ends_with """" (String d s)). rewrite <- IH.
    cbn [escape]. destruct (Ascii.eqb d """"); reflexivity.
  - destruct s as [|d s]; [reflexivity|].
    change (ends_with """" (String c (String d s))) with (ends_with """" (String d s)). rewrite <- IH.
    cbn [escape]. destruct (Ascii.eqb d """"); reflexivity.
Qed.
Lemma escape_lstrip s : lstrip_dq (escape s) = escape s.
Proof.
  pose proof (escape_head s) as H. destruct (escape s) as [|c r]; [reflexivity|]. cbn [lstrip_dq]. unfold quote. now rewrite H.
Qed.
Theorem verbatim_of_quoted s : ends_with """" s = false -> unescape (strip_dq (in_quotes (escape s))) = s.
Proof.
  intros H. rewrite strip_in_quotes; [apply unescape_escape|apply escape_lstrip|]. now rewrite escape_ends.
Qed.
(** A text without backslashes that contains a quote is spelled as an escaped string. *)
Fixpoint quotes_in (s : string) : nat :=
  match s with EmptyString => 0 | String c s' => if Ascii.eqb c """" then S (quotes_in s') else quotes_in s' end.
Lemma escape_escapes s : has_char "\" s = false -> escapes (escape s) (quotes_in s).
Proof.
  induction s as [|c s IH]; intros H; [constructor|]. cbn [has_char] in H. apply orb_false_iff in H. destruct H as [H1 H2].
  cbn [escape quotes_in]. destruct (Ascii.eqb_spec c """") as [->|N]; [apply esc_quote; auto|].
  apply esc_char; [exact N| |auto]. intros ->. discriminate H1.
Qed.
Lemma quotes_in_pos s : has_char """" s = true -> exists n, quotes_in s = S n.
Proof.
  induction s as [|c s IH]; intros H; [discriminate|]. cbn [has_char] in H. cbn [quotes_in].
  destruct (Ascii.eqb_spec c """") as [->|N]; [eauto|]. apply IH. apply orb_true_iff in H. destruct H as [H|H]; [discriminate H|exact H].
Qed.
Theorem escaped_spelled s : has_char "\" s = false -> has_char """" s = true ->
  spelled (Esc (in_quotes (escape s))) (in_quotes (escape s)).
Proof.
  intros H1 H2. destruct (quotes_in_pos _ H2) as [n E]. eapply sp_esc. rewrite <- E. now apply escape_escapes.
Qed.
