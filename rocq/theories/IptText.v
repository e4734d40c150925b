(** Reading back what iptables.py writes: arguments, numbers, options. *)
From Coq Require Import Lia ZifyBool ZifyNat.
From Verif Require Import SpecIptables BaseFacts PyStrFacts TextProofs CiscoProofs CiscoProofs2 CiscoTerm WrapProofs.
Local Open Scope string_scope.
Local Open Scope list_scope.
Local Open Scope Z_scope.

(** ** Arguments *)

(** The text reads as these arguments, and what follows after a blank is read as usual. *)
Definition words (s : string) (ws : list string) : Prop :=
  (forall r, argv false None (s ++ String " " r)%string = option_map (app ws) (argv false None r)) /\
  argv false None s = Some ws /\ has_char newline s = false.
Definition quoteless (s : string) : bool := forall_char (fun c => negb (Ascii.eqb c dquote || Ascii.eqb c newline)) s.
Definition cur_of (s : string) : option string := if is_empty s then None else Some s.
Lemma put_cur s c : put (cur_of s) c = cur_of (append s (String c "")).
Proof. destruct s as [|a s]; reflexivity. Qed.
Lemma taken_cur s : taken (cur_of s) = if is_empty s then [] else [s].
Proof. destruct s; reflexivity. Qed.
Lemma option_map_app (a b : list string) o : option_map (app a) (option_map (app b) o) = option_map (app (a ++ b)) o.
Proof. destruct o; simpl; [rewrite app_assoc|]; reflexivity. Qed.
Lemma option_map_nil (o : option (list string)) : option_map (app []) o = o.
Proof. destruct o; reflexivity. Qed.
Lemma argv_simple s : quoteless s = true -> forall cur r,
  argv false (cur_of cur) (s ++ String " " r)%string = option_map (app (split_ws_aux s cur)) (argv false None r) /\
  argv false (cur_of cur) s = Some (split_ws_aux s cur).
Proof.
  induction s as [|c s IH]; intros Q cur r.
  - cbn [append argv split_ws_aux]. change (Ascii.eqb " " dquote) with false. change (is_ws " ") with true. cbn [argv]. rewrite taken_cur. auto.
  - unfold quoteless in Q. cbn [forall_char] in Q. apply andb_true_iff in Q. destruct Q as (Q1 & Q2). apply negb_true_iff, orb_false_iff in Q1.
    destruct Q1 as (Qd & Qn). cbn [append argv split_ws_aux]. rewrite Qd. destruct (is_ws c) eqn:W.
    + rewrite taken_cur. destruct (IH Q2 "" r) as (A & B). change (cur_of "") with (@None string) in A, B. rewrite A, B.
      destruct (is_empty cur); [rewrite option_map_nil; auto|]. rewrite option_map_app. auto.
    + rewrite put_cur. apply (IH Q2).
Qed.
Lemma quoteless_newline s : quoteless s = true -> has_char newline s = false.
Proof. intros Q. apply (forall_char_has _ s newline Q). reflexivity. Qed.
Lemma words_simple s : quoteless s = true -> words s (split_ws s).
Proof.
  intros Q. split; [intros r; exact (proj1 (argv_simple s Q "" r))|]. split; [exact (proj2 (argv_simple s Q "" ""))|apply quoteless_newline, Q].
Qed.
Lemma has_newline_app a b : has_char newline a = false -> has_char newline b = false -> has_char newline (a ++ b)%string = false.
Proof. intros A B. rewrite has_char_app, A, B. reflexivity. Qed.
Lemma words_cat a b A B : words a A -> words b B -> words (a ++ String " " b)%string (A ++ B).
Proof.
  intros (A1 & A2 & A3) (B1 & B2 & B3). split; [|split].
  - intros r. replace ((a ++ String " " b) ++ String " " r)%string with (a ++ String " " (b ++ String " " r))%string by (rewrite str_app_assoc; reflexivity).
    rewrite A1, B1. apply option_map_app.
  - rewrite A1, B2. reflexivity.
  - rewrite has_char_app. cbn [has_char]. rewrite A3, B3. reflexivity.
Qed.
Lemma words_nil : words "" [].
Proof. split; [|split; reflexivity]. intros r. rewrite option_map_nil. cbn [append argv]. change (Ascii.eqb " " dquote) with false. change (is_ws " ") with true. cbn [argv taken]. apply option_map_nil. Qed.
Lemma plain_arg_quoteless s : plain_arg s -> quoteless s = true.
Proof.
  intros (_ & H). unfold quoteless. eapply forall_char_impl; [|exact H]. unfold arg_char. intros c E. apply negb_true_iff, orb_false_iff in E.
  destruct E as (E1 & E2). rewrite E2. cbn [orb]. apply negb_true_iff. destruct (Ascii.eqb c newline) eqn:N; [|reflexivity].
  apply Ascii.eqb_eq in N. subst c. discriminate E1.
Qed.
Lemma plain_arg_no_ws s : plain_arg s -> no_ws s.
Proof.
  intros (_ & H). unfold no_ws. eapply forall_char_impl; [|exact H]. unfold arg_char. intros c E. apply negb_true_iff, orb_false_iff in E.
  destruct E as (E1 & _). rewrite E1. reflexivity.
Qed.
Lemma words_plain s : plain_arg s -> words s [s].
Proof.
  intros P. pose proof (words_simple s (plain_arg_quoteless s P)) as W. rewrite split_ws_word in W; [exact W|apply plain_arg_no_ws, P|apply P].
Qed.
Lemma words_join l L : Forall2 words l L -> words (join " " l) (concat L).
Proof.
  induction 1 as [|x X l L Hx H IH]; [apply words_nil|]. destruct l as [|y l].
  - inversion H; subst. cbn [join concat]. rewrite app_nil_r. exact Hx.
  - change (join " " (x :: y :: l)) with (x ++ String " " (join " " (y :: l)))%string. cbn [concat]. apply words_cat; [exact Hx|exact IH].
Qed.
Lemma words_filter l L : Forall2 words l L -> exists L', Forall2 words (filter nonempty l) L' /\ concat L' = concat L.
Proof.
  induction 1 as [|x X l L Hx H (L' & I1 & I2)]; [exists []; split; [constructor|reflexivity]|].
  cbn [filter]. destruct x as [|c x].
  - exists L'. split; [exact I1|]. destruct Hx as (_ & Hx & _). cbn in Hx. injection Hx as <-. exact I2.
  - exists (X :: L'). cbn. split; [constructor; assumption|]. rewrite I2. reflexivity.
Qed.
(** In quotes. *)
Definition inside (s : string) : bool := forall_char (fun c => negb (Ascii.eqb c dquote || Ascii.eqb c "\" || Ascii.eqb c newline)) s.
Lemma argv_quoted s : inside s = true -> forall cur r, argv true (Some cur) (s ++ r)%string = argv true (Some (append cur s)) r.
Proof.
  induction s as [|c s IH]; intros Q cur r; [cbn [append]; rewrite str_app_nil; reflexivity|].
  unfold inside in Q. cbn [forall_char] in Q. apply andb_true_iff in Q. destruct Q as (Q1 & Q2). apply negb_true_iff, orb_false_iff in Q1.
  destruct Q1 as (Q1 & _). apply orb_false_iff in Q1. destruct Q1 as (Qd & Qb). cbn [append argv]. rewrite Qd, Qb. unfold put.
  rewrite (IH Q2). f_equal. f_equal. rewrite str_app_assoc. reflexivity.
Qed.
Lemma words_quoted s : inside s = true -> words (String dquote (s ++ String dquote ""))%string [s].
Proof.
  intros Q. split; [|split].
  - intros r. cbn [append argv]. change (Ascii.eqb dquote dquote) with true. rewrite str_app_assoc, (argv_quoted s Q). cbn [append argv].
    change (Ascii.eqb dquote dquote) with true. change (Ascii.eqb " " dquote) with false. change (is_ws " ") with true. cbn [taken]. reflexivity.
  - cbn [argv]. change (Ascii.eqb dquote dquote) with true. rewrite (argv_quoted s Q). reflexivity.
  - cbn [has_char]. change (Ascii.eqb newline dquote) with false. rewrite has_char_app. cbn [has_char orb].
    rewrite (forall_char_has _ s newline Q) by reflexivity. reflexivity.
Qed.

(** ** Numbers *)

Lemma digit_char_zero d : 0 < d < 10 -> Ascii.eqb (digit_char d) "0" = false.
Proof.
  intros H. assert (E : exists k : nat, (0 < k < 10)%nat /\ d = Z.of_nat k) by (exists (Z.to_nat d); lia).
  destruct E as [k [Hk ->]]. do 10 (destruct k as [|k]; [first [lia|reflexivity]|]). lia.
Qed.
Lemma dec_loop_head : forall fuel n acc, 0 < n -> n < 2 ^ Z.of_nat fuel -> match dec_loop fuel n acc with String c _ => Ascii.eqb c "0" = false | "" => False end.
Proof.
  induction fuel as [|fuel IH]; intros n acc Hn Hf; [simpl in Hf; lia|]. cbn [dec_loop].
  assert (Hd : n = 10 * (n / 10) + n mod 10) by (apply Z.div_mod; lia).
  assert (Hm : 0 <= n mod 10 < 10) by (apply Z.mod_pos_bound; lia). assert (Hq : 0 <= n / 10) by (apply Z.div_pos; lia).
  destruct (n / 10 =? 0) eqn:E.
  - apply Z.eqb_eq in E. apply digit_char_zero. lia.
  - apply Z.eqb_neq in E. apply IH; [lia|]. rewrite Nat2Z.inj_succ, Z.pow_succ_r in Hf by lia. nia.
Qed.
Lemma number_dec n : 0 <= n -> number (dec n) = Some n.
Proof.
  intros H. destruct (Z.eq_dec n 0) as [->|N]; [reflexivity|].
  pose proof (dec_value n H) as D.
  assert (X : match dec n with String c _ => Ascii.eqb c "0" = false | "" => False end).
  { unfold dec. destruct (n <? 0) eqn:E; [lia|]. apply dec_loop_head; [lia|].
    rewrite Nat2Z.inj_succ, Z2Nat.id by apply Z.log2_nonneg. apply Z.log2_spec. lia. }
  unfold number. destruct (dec n) as [|c [|d s]]; [destruct X|exact D|]. rewrite X. exact D.
Qed.
Lemma dec_no c n : 0 <= n -> is_digit c = false -> has_char c (dec n) = false.
Proof. intros H D. exact (forall_char_has _ _ c (dec_digits n H) D). Qed.
(** A range as ports and values are written. *)
Definition range_arg (lo hi : Z) : string := if lo =? hi then dec lo else append (dec lo) (append ":" (dec hi)).
Lemma read_range_arg lo hi : 0 <= lo <= hi -> read_range (range_arg lo hi) = Some (lo, hi).
Proof.
  intros H. unfold range_arg, read_range. destruct (lo =? hi) eqn:E.
  - apply Z.eqb_eq in E. subst. rewrite split_char_none by (apply dec_no; [lia|reflexivity]). cbn [map]. rewrite number_dec by lia. reflexivity.
  - change (append ":" (dec hi)) with (String ":" (dec hi)). rewrite split_char_app by (apply dec_no; [lia|reflexivity]).
    rewrite split_char_none by (apply dec_no; [lia|reflexivity]). cbn [map]. rewrite !number_dec by lia. replace (lo <=? hi) with true by lia. reflexivity.
Qed.
Lemma range_arg_no c lo hi : 0 <= lo <= hi -> is_digit c = false -> c <> ":"%char -> has_char c (range_arg lo hi) = false.
Proof.
  intros H D N. unfold range_arg. destruct (lo =? hi); [apply dec_no; [lia|exact D]|]. rewrite has_char_app.
  cbn [append has_char]. rewrite (dec_no c lo) by (try lia; exact D). rewrite (dec_no c hi) by (try lia; exact D).
  destruct (Ascii.eqb ":" c) eqn:E; [apply Ascii.eqb_eq in E; congruence|reflexivity].
Qed.
Definition is_numc (c : ascii) : bool := is_digit c || Ascii.eqb c ":" || Ascii.eqb c ",".
Lemma range_arg_chars lo hi : 0 <= lo <= hi -> forall_char is_numc (range_arg lo hi) = true.
Proof.
  intros H. assert (D : forall n, 0 <= n -> forall_char is_numc (dec n) = true).
  { intros n Hn. eapply forall_char_impl; [|exact (dec_digits n Hn)]. intros c E. unfold is_numc. rewrite E. reflexivity. }
  unfold range_arg. destruct (lo =? hi); [apply D; lia|]. rewrite forall_char_app, D by lia. cbn [append forall_char]. rewrite D by lia. reflexivity.
Qed.
Lemma range_arg_nonempty lo hi : range_arg lo hi <> "".
Proof. unfold range_arg. destruct (lo =? hi); [apply dec_nonempty|]. pose proof (dec_nonempty lo). destruct (dec lo); [congruence|discriminate]. Qed.
Lemma numc_arg c : is_numc c = true -> arg_char c = true.
Proof. destruct c as [[] [] [] [] [] [] [] []]; intros H; first [reflexivity|discriminate H]. Qed.
Lemma plain_num s : s <> "" -> forall_char is_numc s = true -> plain_arg s.
Proof. intros N H. split; [exact N|]. eapply forall_char_impl; [exact numc_arg|exact H]. Qed.
Lemma range_plain lo hi : 0 <= lo <= hi -> plain_arg (range_arg lo hi).
Proof. intros H. apply plain_num; [apply range_arg_nonempty|apply range_arg_chars, H]. Qed.
Lemma dec_plain_arg n : 0 <= n -> plain_arg (dec n).
Proof.
  intros H. apply plain_num; [apply dec_nonempty|]. eapply forall_char_impl; [|exact (dec_digits n H)]. intros c E. unfold is_numc. rewrite E. reflexivity.
Qed.
Lemma prefix_plain_arg n : valid n -> plain_arg (prefixlen_text n).
Proof.
  intros V. split.
  - unfold prefixlen_text. pose proof (addr_text_nonempty (nver n) (naddr n)) as N. destruct V as (_ & V & _). specialize (N V).
    destruct (addr_text (nver n) (naddr n)); [congruence|discriminate].
  - unfold prefixlen_text. rewrite forall_char_app. apply andb_true_iff. split.
    + eapply forall_char_impl; [|apply addr_text_chars]. intros c. destruct c as [[] [] [] [] [] [] [] []]; intros H; first [reflexivity|discriminate H].
    + destruct V as (V & _). pose proof (dec_plain_arg (nlen n) (proj1 V)) as (_ & D). cbn [append forall_char]. rewrite D. reflexivity.
Qed.

(** ** Pieces of a rule *)

(** Text [s], read in state [st], adds conditions that together say [cond] and leaves
    state [st']. [T] restricts the packets. *)
Definition reads (v : ver) (st : reading) (ws : list string) (cs : list (packet -> Prop)) (st' : reading) : Prop :=
  forall r, read_rule v st (ws ++ r) = fold_right also (read_rule v st' r) cs.
Definition piece (T : packet -> Prop) (v : ver) (st : reading) (s : string) (cond : packet -> Prop) (st' : reading) : Prop :=
  exists ws cs, words s ws /\ reads v st ws cs st' /\ forall p, T p -> Forall (fun c : packet -> Prop => c p) cs <-> cond p.
Lemma fold_also_app cs cs' o : fold_right also o (cs ++ cs') = fold_right also (fold_right also o cs') cs.
Proof. apply fold_right_app. Qed.
Lemma piece_nil T v st : piece T v st "" (fun _ => True) st.
Proof.
  exists [], []. split; [apply words_nil|]. split; [intros r; reflexivity|]. intros p _. split; constructor.
Qed.
Lemma piece_one T v st s ws c st' : words s ws -> (forall r, read_rule v st (ws ++ r) = also c (read_rule v st' r)) -> piece T v st s c st'.
Proof.
  intros W R. exists ws, [c]. split; [exact W|]. split; [exact R|]. intros p _. split; [intros H; inversion H; assumption|intros H; constructor; [exact H|constructor]].
Qed.
Lemma piece_iff (T : packet -> Prop) v st s c d st' : (forall p, T p -> c p <-> d p) -> piece T v st s c st' -> piece T v st s d st'.
Proof. intros E (ws & cs & W & R & H). exists ws, cs. split; [exact W|]. split; [exact R|]. intros p Tp. rewrite (H p Tp). apply E, Tp. Qed.
Lemma reads_app v st a x st1 b y st2 : reads v st a x st1 -> reads v st1 b y st2 -> reads v st (a ++ b) (x ++ y) st2.
Proof. intros A B r. rewrite <- app_assoc, A, B. symmetry. apply fold_also_app. Qed.
Lemma Forall_conj {A} (P : A -> Prop) x y : Forall P (x ++ y) <-> Forall P x /\ Forall P y.
Proof. apply Forall_app. Qed.
Lemma piece_cat T v st a c st1 b d st2 : piece T v st a c st1 -> piece T v st1 b d st2 -> piece T v st (a ++ String " " b)%string (fun p => c p /\ d p) st2.
Proof.
  intros (A & x & A1 & A2 & A3) (B & y & B1 & B2 & B3). exists (A ++ B), (x ++ y). split; [apply words_cat; assumption|]. split; [eapply reads_app; eassumption|].
  intros p Tp. rewrite Forall_conj, (A3 p Tp), (B3 p Tp). reflexivity.
Qed.
(** Pieces one after the other, joined by blanks; empty ones may be left out. *)
Inductive pieces (T : packet -> Prop) (v : ver) : reading -> list string -> (packet -> Prop) -> reading -> Prop :=
| pieces_nil st : pieces T v st [] (fun _ => True) st
| pieces_cons st s c st1 l d st2 : piece T v st s c st1 -> pieces T v st1 l d st2 -> pieces T v st (s :: l) (fun p => c p /\ d p) st2.
Lemma pieces_words T v st l c st' : pieces T v st l c st' -> exists L cs, Forall2 words l L /\ reads v st (concat L) cs st' /\
  forall p, T p -> Forall (fun c : packet -> Prop => c p) cs <-> c p.
Proof.
  induction 1 as [st|st s c st1 l d st2 (ws & x & A1 & A2 & A3) H (L & y & B1 & B2 & B3)].
  - exists [], []. split; [constructor|]. split; [intros r; reflexivity|]. intros p _. split; constructor.
  - exists (ws :: L), (x ++ y). split; [constructor; assumption|]. split; [cbn [concat]; eapply reads_app; eassumption|].
    intros p Tp. rewrite Forall_conj, (A3 p Tp), (B3 p Tp). reflexivity.
Qed.
Lemma pieces_join T v st l c st' : pieces T v st l c st' -> piece T v st (join " " l) c st'.
Proof.
  intros H. destruct (pieces_words _ _ _ _ _ _ H) as (L & cs & A & B & C). exists (concat L), cs. split; [apply words_join, A|]. split; assumption.
Qed.
Lemma pieces_app T v st a c st1 b d st2 : pieces T v st a c st1 -> pieces T v st1 b d st2 ->
  exists e, pieces T v st (a ++ b) e st2 /\ forall p, e p <-> c p /\ d p.
Proof.
  induction 1 as [st|st s c st0 l d' st1 A H IH]; intros B.
  - exists d. split; [exact B|]. tauto.
  - destruct (IH B) as (e & E1 & E2). exists (fun p => c p /\ e p). split; [cbn [app]; eapply pieces_cons; eassumption|]. intros p. rewrite E2. tauto.
Qed.
