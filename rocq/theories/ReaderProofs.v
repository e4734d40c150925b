(** Proofs about reading policy files line by line. *)
From Coq Require Import Lia ZifyBool ZifyNat Relations.
From Verif Require Import SpecReader BaseFacts PyStrFacts.
Local Open Scope string_scope.
Local Open Scope list_scope.

(** ** Words *)
Lemma blank_cons c s : blank (String c s) -> is_ws c = true /\ blank s.
Proof. intros B. split; [apply B; left; reflexivity|intros d D; apply B; right; exact D]. Qed.
Lemma split_blank b s : blank b -> split_ws_aux (append b s) "" = split_ws_aux s "".
Proof. induction b as [|c b IH]; intros B; [reflexivity|]. apply blank_cons in B. destruct B as [C B]. cbn [append split_ws_aux is_empty]. rewrite C. exact (IH B). Qed.
Lemma solid_no_ws w : solid w -> no_ws w.
Proof.
  intros [_ S]. unfold no_ws. induction w as [|c w IH]; [reflexivity|]. cbn [forall_char]. rewrite (S c (or_introl eq_refl)). cbn. apply IH. intros d D. apply S. right. exact D.
Qed.
Lemma split_sep w : forall cur c s, no_ws w -> append cur w <> "" -> is_ws c = true -> split_ws_aux (append w (String c s)) cur = append cur w :: split_ws_aux s "".
Proof.
  induction w as [|d w IH]; intros cur c s N E W; cbn [append split_ws_aux].
  - rewrite W. rewrite str_app_nil in *. destruct cur; [congruence|reflexivity].
  - unfold no_ws in N. cbn in N. apply andb_true_iff in N. destruct N as [N1 N2]. destruct (is_ws d); [discriminate N1|].
    replace (append cur (String d w)) with (append (append cur (String d "")) w) by (rewrite str_app_assoc; reflexivity).
    apply IH; [exact N2| |exact W]. destruct cur; discriminate.
Qed.
Lemma spelled_split s ws : spelled s ws -> split_ws s = ws.
Proof.
  unfold split_ws. induction 1 as [b B|b w B S|b w c s ws B S C Sp IH].
  - rewrite <- (str_app_nil b), (split_blank _ _ B). reflexivity.
  - rewrite (split_blank _ _ B). apply split_ws_aux_word; [exact (solid_no_ws _ S)|apply S].
  - rewrite (split_blank _ _ B), (split_sep w "" c s (solid_no_ws _ S) (proj1 S) C). cbn [append]. f_equal. exact IH.
Qed.
Lemma split_lstrip s : split_ws_aux (lstrip s) "" = split_ws_aux s "".
Proof. induction s as [|c s IH]; [reflexivity|]. cbn [lstrip split_ws_aux is_empty]. destruct (is_ws c) eqn:E; [exact IH|]. cbn [split_ws_aux]. rewrite E. reflexivity. Qed.
Lemma split_rstrip s : forall cur, split_ws_aux (rstrip s) cur = split_ws_aux s cur.
Proof.
  induction s as [|c s IH]; intros cur; [reflexivity|]. cbn [rstrip split_ws_aux]. destruct (is_ws c) eqn:E; cbn [andb].
  - destruct (rstrip s) as [|d r] eqn:R; cbn [is_empty].
    + rewrite <- IH. cbn [split_ws_aux is_empty]. destruct (is_empty cur); reflexivity.
    + cbn [split_ws_aux] in *. rewrite E. rewrite <- IH. reflexivity.
  - cbn [split_ws_aux]. rewrite E. apply IH.
Qed.
Lemma split_strip s : split_ws (strip s) = split_ws s.
Proof. unfold split_ws, strip. rewrite split_rstrip. apply split_lstrip. Qed.
Lemma quotes_split l : List.length (split_char dquote l) = S (quotes l).
Proof.
  unfold quotes. induction l as [|c l IH]; [reflexivity|]. cbn [split_char list_ascii_of_string filter].
  change """"%char with dquote. rewrite (Ascii.eqb_sym dquote c). destruct (Ascii.eqb c dquote); cbn [List.length]; [rewrite IH; reflexivity|].
  destruct (split_char dquote l); [discriminate IH|exact IH].
Qed.
Definition inside (b : bool) (st : rstate) : rstate := mkRstate (rs_header st) (rs_term st) b (rs_made st) (rs_filter st) (rs_listed st) (rs_current st).
Lemma inside_same st : inside (rs_string st) st = st.
Proof. destruct st. reflexivity. Qed.
Lemma odd_plus n : Nat.odd (S n + 1) = Nat.odd n.
Proof. replace (S n + 1)%nat with (2 + n)%nat by lia. apply Nat.odd_add_mul_2 with (m := 1%nat) || reflexivity. Qed.
Lemma line_even l st : Nat.Even (quotes l) -> read_line l st = if rs_string st then Ok st else let! st' := see_words (split_ws l) st in Ok (see_close (split_ws l) st').
Proof.
  intros E. unfold read_line. rewrite quotes_split, odd_plus, split_strip. apply Nat.even_spec in E. rewrite <- Nat.negb_even, E. cbn [negb].
  change (mkRstate _ _ (rs_string st) _ _ _ _) with (inside (rs_string st) st). rewrite inside_same. reflexivity.
Qed.
Lemma line_odd l st : Nat.Odd (quotes l) ->
  read_line l st = if rs_string st then (let! st' := see_words (split_ws l) (inside false st) in Ok (see_close (split_ws l) st')) else Ok (inside true st).
Proof.
  intros E. unfold read_line. rewrite quotes_split, odd_plus, split_strip. apply Nat.odd_spec in E. rewrite E.
  destruct (rs_string st); reflexivity.
Qed.
Lemma says_line l ws st : line_says l ws -> rs_string st = false -> read_line l st = let! st' := see_words ws st in Ok (see_close ws st').
Proof. intros [E S] F. rewrite (line_even _ _ E), F, (spelled_split _ _ S). reflexivity. Qed.

(** ** Lines that say nothing *)
Lemma add_other w vs t : ~ In w field_names -> add_field w vs t = t.
Proof.
  intros N. destruct t. unfold add_field.
  repeat match goal with |- context [String.eqb w ?k] => destruct (String.eqb_spec w k) as [->|_]; [destruct N; cbn; auto 10|] end. reflexivity.
Qed.
Lemma close_open ws st : ~ In "}" ws -> see_close ws st = st.
Proof. intros N. unfold see_close. destruct (str_in "}" ws) eqn:E; [apply str_in_spec in E; destruct (N E)|reflexivity]. Qed.
Lemma other_words ws st : other ws -> (let! st' := see_words ws st in Ok (see_close ws st')) = Ok st.
Proof.
  intros [N K]. destruct ws as [|w rest]; [reflexivity|]. specialize (K w rest eq_refl).
  assert (K1 : w <> "header") by (intros ->; apply K; left; reflexivity). assert (K2 : w <> "term") by (intros ->; apply K; right; left; reflexivity).
  assert (K3 : w <> "target::") by (intros ->; apply K; right; right; left; reflexivity).
  apply String.eqb_neq in K1, K2, K3. unfold see_words, see_header, see_term, see_target, see_field. rewrite K1, K2. cbn [bind]. rewrite K3, andb_false_r. cbn [bind].
  rewrite (close_open _ _ N). destruct (rs_term st) eqn:T; [|reflexivity]. rewrite add_other; [destruct st; cbn in T; subst; reflexivity|].
  intros I. apply K, in_or_app. right. exact I.
Qed.
Lemma read_middle m : Forall (fun l => Nat.Even (quotes l)) m -> forall rest st, rs_string st = true -> read_lines (m ++ rest) st = read_lines rest st.
Proof.
  induction 1 as [|l m E _ IH]; intros rest st S; [reflexivity|]. cbn [app read_lines]. rewrite (line_even _ _ E), S. cbn [bind]. exact (IH rest st S).
Qed.
Lemma read_quiet q : quiet q -> forall rest st, rs_string st = false -> read_lines (q ++ rest) st = read_lines rest st.
Proof.
  induction 1 as [|l ws q L O _ IH|o m c ws q Oo M C Sp O _ IH]; intros rest st S; [reflexivity| |]; cbn [app read_lines].
  - rewrite (says_line _ _ _ L S), (other_words _ _ O). cbn [bind]. exact (IH rest st S).
  - rewrite (line_odd _ _ Oo), S. cbn [bind]. rewrite <- app_assoc. rewrite (read_middle _ M _ (inside true st) eq_refl). cbn [app read_lines].
    rewrite (line_odd _ _ C). cbn [rs_string inside]. rewrite (spelled_split _ _ Sp). change (inside false (inside true st)) with (inside false st).
    rewrite (other_words _ _ O). cbn [bind]. replace (inside false st) with st by (rewrite <- S; symmetry; apply inside_same). exact (IH rest st S).
Qed.

(** ** Headers *)
Definition step_target (st : rstate) (n : string) : rstate :=
  if String.eqb (rf_name (rs_filter st)) n then st
  else mkRstate (rs_header st) (rs_term st) (rs_string st) (rs_made st ++ [rs_filter st]) (mkRfilter n []) (rs_listed st) (rs_current st).
Definition in_header (st : rstate) : Prop := rs_header st = true /\ rs_term st = false /\ rs_string st = false.
Definition end_header (st : rstate) : rstate := mkRstate false false false (rs_made st) (rs_filter st) (rs_listed st ++ [List.length (rs_made st)]) (rs_current st).
Lemma read_header_body b names : header_body b names -> forall rest st, in_header st -> read_lines (b ++ rest) st = read_lines rest (end_header (fold_left step_target names st)).
Proof.
  induction 1 as [l (ws & L)|q b names Q _ IH|l platform name options b names L N _ IH]; intros rest st (H1 & H2 & H3).
  - cbn [app read_lines fold_left]. rewrite (says_line _ _ _ L H3). unfold see_words. cbn [see_header see_term see_target bind].
    unfold see_header, see_term, see_target, see_field. cbn [String.eqb Ascii.eqb Bool.eqb bind]. rewrite andb_false_r. cbn [bind]. rewrite H2.
    unfold see_close. cbn [str_in]. change (str_in "}" ("}" :: ws)) with true. cbv iota. rewrite H1, H2, H3. reflexivity.
  - rewrite <- app_assoc, (read_quiet _ Q _ _ H3). apply IH. split; auto.
  - cbn [app read_lines fold_left]. rewrite (says_line _ _ _ L H3). unfold see_words.
    change (see_term "target::" (platform :: name :: options) (see_header "target::" st)) with (Ok st). cbn [bind].
    assert (St : see_target "target::" (platform :: name :: options) st = Ok (step_target st name)) by (unfold see_target; rewrite H1; cbn [andb String.eqb Ascii.eqb Bool.eqb]; rewrite <- H1; reflexivity).
    rewrite St. cbn [bind]. unfold see_field.
    assert (T : rs_term (step_target st name) = false /\ in_header (step_target st name)).
    { unfold step_target. destruct (String.eqb _ name); (split; [exact H2|split; [exact H1|split; [exact H2|exact H3]]]). }
    rewrite (proj1 T). rewrite close_open; [|intros [X|X]; [discriminate X|exact (N X)]]. cbn [bind]. apply IH, T.
Qed.
Definition ready (st : rstate) : Prop := rs_header st = false /\ rs_term st = false /\ rs_string st = false.
Definition set_header (st : rstate) : rstate := mkRstate true false false (rs_made st) (rs_filter st) (rs_listed st) (rs_current st).
Lemma read_header h names : header_block h names -> forall rest st, ready st -> read_lines (h ++ rest) st = read_lines rest (end_header (fold_left step_target names (set_header st))).
Proof.
  intros (l & ws & b & -> & L & N & B) rest st (R1 & R2 & R3). cbn [app read_lines]. rewrite (says_line _ _ _ L R3).
  unfold see_words, see_header, see_term, see_target, see_field. cbn [String.eqb Ascii.eqb Bool.eqb bind rs_header andb rs_term]. rewrite R2.
  rewrite close_open; [|intros [X|X]; [discriminate X|exact (N X)]]. cbn [bind]. rewrite R3.
  change (mkRstate true false false (rs_made st) (rs_filter st) (rs_listed st) (rs_current st)) with (set_header st).
  apply (read_header_body _ _ B). split; [reflexivity|]. split; reflexivity.
Qed.
Lemma targets_empty : forall names st, rf_terms (rs_filter st) = [] -> exists m, rs_made (fold_left step_target names st) = rs_made st ++ m /\
  rf_terms (rs_filter (fold_left step_target names st)) = [] /\ rf_name (rs_filter (fold_left step_target names st)) = last names (rf_name (rs_filter st)) /\
  rs_listed (fold_left step_target names st) = rs_listed st.
Proof.
  induction names as [|n names IH]; intros st E; cbn [fold_left]; [exists []; rewrite app_nil_r; auto|].
  unfold step_target at 2 4 6 8. destruct (String.eqb_spec (rf_name (rs_filter st)) n) as [X|X].
  - destruct (IH st E) as (m & A & B & C & D). exists m. split; [exact A|]. split; [exact B|]. split; [|exact D]. rewrite C. destruct names; [exact X|]. cbn [last]. apply (f_equal (fun _ => last (s :: names) n)) in X. clear - names. revert s. induction names as [|y names IH]; intros s; [reflexivity|]. exact (IH y).
  - set (st1 := mkRstate _ _ _ _ _ _ _). destruct (IH st1 eq_refl) as (m & A & B & C & D). exists (rs_filter st :: m). split; [rewrite A; cbn [rs_made st1]; rewrite <- app_assoc; reflexivity|].
    split; [exact B|]. split; [|exact D]. rewrite C. cbn [rs_filter rf_name st1]. destruct names; [reflexivity|]. cbn [last]. clear - names. revert s. induction names as [|y names IH]; intros s; [reflexivity|]. exact (IH y).
Qed.
Lemma last_any {A} (l : list A) a b : l <> [] -> last l a = last l b.
Proof. induction l as [|x l IH]; intros N; [congruence|]. destruct l as [|y l]; [reflexivity|]. cbn [last]. apply IH. discriminate. Qed.
Lemma targets_fresh : forall names st, (exists n, In n names /\ n <> rf_name (rs_filter st)) -> exists m, rs_made (fold_left step_target names st) = (rs_made st ++ [rs_filter st]) ++ m /\
  rf_terms (rs_filter (fold_left step_target names st)) = [] /\ rf_name (rs_filter (fold_left step_target names st)) = last names "" /\
  rs_listed (fold_left step_target names st) = rs_listed st.
Proof.
  induction names as [|n names IH]; intros st (x & I & N); [destruct I|]. cbn [fold_left]. unfold step_target at 2 4 6 8.
  destruct (String.eqb_spec (rf_name (rs_filter st)) n) as [X|X].
  - destruct I as [<-|I]; [congruence|]. destruct (IH st (ex_intro _ x (conj I N))) as (m & A & B & C & D). exists m. split; [exact A|]. split; [exact B|]. split; [|exact D].
    rewrite C. destruct names; [destruct I|reflexivity].
  - set (st1 := mkRstate _ _ _ _ _ _ _). destruct (targets_empty names st1 eq_refl) as (m & A & B & C & D). exists m. split; [exact A|]. split; [exact B|]. split; [|exact D].
    rewrite C. cbn [rs_filter rf_name st1]. destruct names; [reflexivity|]. change (last (n :: s :: names) "") with (last (s :: names) ""). apply last_any. discriminate.
Qed.

(** ** Terms *)
Definition in_term (st : rstate) : Prop := rs_header st = false /\ rs_term st = true /\ rs_string st = false.
Definition with_term (st : rstate) (t : rterm) : rstate := mkRstate (rs_header st) (rs_term st) (rs_string st) (rs_made st) (rs_filter st) (rs_listed st) t.
Definition step_field (t : rterm) (e : string * list string) : rterm := add_field (fst e) (snd e) t.
Definition end_term (st : rstate) : rstate :=
  mkRstate false false false (rs_made st) (mkRfilter (rf_name (rs_filter st)) (rf_terms (rs_filter st) ++ [rs_current st])) (rs_listed st) (rs_current st).
Lemma with_same st : with_term st (rs_current st) = st.
Proof. destruct st. reflexivity. Qed.
Lemma read_term_body b fs : term_body b fs -> forall rest st, in_term st -> read_lines (b ++ rest) st = read_lines rest (end_term (with_term st (fold_left step_field fs (rs_current st)))).
Proof.
  induction 1 as [l (ws & L)|q b fs Q _ IH|l key values b fs K L N _ IH]; intros rest st (H1 & H2 & H3).
  - cbn [app read_lines fold_left]. rewrite with_same, (says_line _ _ _ L H3).
    unfold see_words, see_header, see_term, see_target, see_field. cbn [String.eqb Ascii.eqb Bool.eqb bind]. rewrite andb_false_r. cbn [bind]. rewrite H2.
    rewrite add_other by (cbn; intuition discriminate). unfold see_close. change (str_in "}" ("}" :: ws)) with true. cbv iota. cbn [rs_header rs_term rs_string rs_made rs_filter rs_listed rs_current bind]. rewrite H1, H3. reflexivity.
  - rewrite <- app_assoc, (read_quiet _ Q _ _ H3). apply IH. split; auto.
  - cbn [app read_lines fold_left]. rewrite (says_line _ _ _ L H3).
    assert (K' : key <> "header" /\ key <> "term" /\ key <> "target::") by (cbn in K; repeat (destruct K as [<-|K]; [repeat split; discriminate|]); destruct K).
    destruct K' as (K1 & K2 & K3). apply String.eqb_neq in K1, K2, K3. unfold see_words, see_header, see_term, see_target, see_field. rewrite K1, K2. cbn [bind]. rewrite K3, andb_false_r. cbn [bind]. rewrite H2.
    rewrite close_open; [|intros [X|X]; [subst key; cbn in K; intuition discriminate|exact (N X)]]. cbn [bind]. rewrite <- H2 at 1.
    change (mkRstate (rs_header st) (rs_term st) (rs_string st) (rs_made st) (rs_filter st) (rs_listed st) (add_field key values (rs_current st))) with (with_term st (step_field (rs_current st) (key, values))).
    rewrite IH; [reflexivity|]. split; [exact H1|]. split; [exact H2|exact H3].
Qed.
Definition grown (t0 : rterm) (fs : fields) (t : rterm) : Prop :=
  rt_name t = rt_name t0 /\ rt_source t = rt_source t0 ++ gathered "source-address::" fs /\ rt_destination t = rt_destination t0 ++ gathered "destination-address::" fs /\
  rt_sport t = rt_sport t0 ++ gathered "source-port::" fs /\ rt_dport t = rt_dport t0 ++ gathered "destination-port::" fs /\ rt_action t = rt_action t0 ++ gathered "action::" fs /\
  rt_option t = rt_option t0 ++ gathered "option::" fs /\ rt_protocol t = rt_protocol t0 ++ gathered "protocol::" fs.
Lemma fields_grown : forall fs t, Forall (fun e => In (fst e) field_names) fs -> grown t fs (fold_left step_field fs t).
Proof.
  induction fs as [|[k vs] fs IH]; intros t F; cbn [fold_left].
  - unfold grown. cbn. rewrite !app_nil_r. repeat split; reflexivity.
  - inversion F as [|x l K F']; subst. specialize (IH (step_field t (k, vs)) F'). unfold grown in *.
    destruct IH as (A & B & C & D & E & G & H & I). rewrite A, B, C, D, E, G, H, I. clear A B C D E G H I F F'.
    destruct t. cbn in K. repeat (destruct K as [<-|K]; [cbn; rewrite <- ?app_assoc; repeat split; reflexivity|]). destruct K.
Qed.
Lemma body_keys b fs : term_body b fs -> Forall (fun e => In (fst e) field_names) fs.
Proof. induction 1; auto. Qed.
Lemma read_terms b ts : term_blocks b ts -> forall rest st, ready st -> exists st' l, read_lines (b ++ rest) st = read_lines rest st' /\ ready st' /\
  rs_made st' = rs_made st /\ rs_listed st' = rs_listed st /\ rs_filter st' = mkRfilter (rf_name (rs_filter st)) (rf_terms (rs_filter st) ++ l) /\ Forall2 term_read ts l.
Proof.
  induction 1 as [q Q|q l name ws body fs b ts Q L N B _ IH]; intros rest st R.
  - exists st, []. split; [apply (read_quiet _ Q), R|]. split; [exact R|]. split; [reflexivity|]. split; [reflexivity|]. split; [|constructor]. rewrite app_nil_r. destruct (rs_filter st). reflexivity.
  - pose proof (body_keys _ _ B) as Fk. destruct R as (R1 & R2 & R3). rewrite <- app_assoc, (read_quiet _ Q _ _ R3). cbn [app read_lines]. rewrite (says_line _ _ _ L R3).
    unfold see_words, see_header, see_term, see_target, see_field. cbn [String.eqb Ascii.eqb Bool.eqb bind rs_header rs_term]. rewrite R1. cbn [andb bind rs_header rs_term rs_string rs_made rs_filter rs_listed rs_current].
    rewrite add_other by (cbn; intuition discriminate). rewrite close_open; [|intros [X|X]; [discriminate X|exact (N X)]]. cbn [bind]. rewrite R3, <- app_assoc.
    set (st1 := mkRstate false true false (rs_made st) (rs_filter st) (rs_listed st) (rterm_new name)).
    rewrite (read_term_body _ _ B); [|split; [reflexivity|split; reflexivity]].
    set (t := fold_left step_field fs (rs_current st1)). set (st2 := end_term (with_term st1 t)).
    destruct (IH rest st2) as (st' & l' & E1 & E2 & E3 & E4 & E5 & E6); [split; [reflexivity|split; reflexivity]|].
    exists st', (t :: l'). split; [exact E1|]. split; [exact E2|]. split; [exact E3|]. split; [exact E4|]. split.
    + rewrite E5. cbn. rewrite <- app_assoc. reflexivity.
    + constructor; [|exact E6]. exact (fields_grown fs (rterm_new name) Fk).
Qed.

(** ** Files *)
Definition all_made (st : rstate) : list rfilter := rs_made st ++ [rs_filter st].
Lemma read_file lines doc : file_says lines doc -> forall st, ready st -> apart (rf_name (rs_filter st)) doc ->
  exists st' more ks, read_lines lines st = Ok st' /\ all_made st' = all_made st ++ more /\ rs_listed st' = rs_listed st ++ ks /\
    Forall2 (fun e k => exists f, nth_error (all_made st') k = Some f /\ filter_read e f) doc ks.
Proof.
  induction 1 as [q Q|q h b rest names ts doc Q Hh Hb _ IH]; intros st R Ap.
  - exists st, [], []. split; [rewrite <- (app_nil_r q), (read_quiet _ Q _ _ (proj2 (proj2 R))); reflexivity|]. rewrite !app_nil_r. split; [reflexivity|]. split; [reflexivity|constructor].
  - destruct Ap as [Fr Ap]. rewrite (read_quiet _ Q _ _ (proj2 (proj2 R))), (read_header _ _ Hh _ _ R).
    destruct (targets_fresh names (set_header st) Fr) as (m & M1 & M2 & M3 & M4). set (st1 := fold_left step_target names (set_header st)) in *.
    destruct (read_terms _ _ Hb rest (end_header st1)) as (st2 & l & E1 & E2 & E3 & E4 & E5 & E6); [split; [reflexivity|split; reflexivity]|].
    cbn [end_header rs_made rs_listed rs_filter] in E3, E4, E5. rewrite M2, M3 in E5. cbn [app] in E5.
    destruct (IH st2 E2) as (st' & more & ks & F1 & F2 & F3 & F4); [rewrite E5; exact Ap|].
    exists st', (m ++ rs_filter st2 :: more), (List.length (rs_made st1) :: ks). split; [rewrite E1; exact F1|].
    assert (A2 : all_made st2 = all_made st ++ m ++ [rs_filter st2]).
    { unfold all_made at 1. rewrite E3, M1. cbn [rs_made rs_filter set_header]. unfold all_made. rewrite <- !app_assoc. reflexivity. }
    split; [rewrite F2, A2, <- !app_assoc; reflexivity|]. split; [rewrite F3, E4, M4; cbn [rs_listed set_header]; rewrite <- app_assoc; reflexivity|].
    constructor; [|exact F4]. exists (rs_filter st2). split.
    + rewrite F2. unfold all_made. rewrite E3, <- app_assoc, nth_error_app2 by lia. rewrite Nat.sub_diag. reflexivity.
    + rewrite E5. split; [reflexivity|exact E6].
Qed.
Theorem reader_reads lines doc : file_says lines doc -> apart "" doc -> exists fs, read_policy lines = Ok fs /\ Forall2 filter_read doc fs.
Proof.
  intros F A. destruct (read_file _ _ F rs_init) as (st & more & ks & E1 & _ & E3 & E4); [split; [reflexivity|split; reflexivity]|exact A|].
  unfold read_policy. rewrite E1. cbn [bind]. eexists. split; [reflexivity|]. unfold filters_of. rewrite E3. cbn [rs_listed rs_init app].
  fold (all_made st). clear - E4. induction E4 as [|e k doc ks (f & N & R) _ IH]; constructor; [|exact IH]. rewrite (nth_error_nth _ _ _ N). exact R.
Qed.

(** ** Every line has words *)
Lemma spelled_blank c s ws : is_ws c = true -> spelled s ws -> spelled (String c s) ws.
Proof.
  intros C. assert (Bc : forall b, blank b -> blank (String c b)) by (intros b B d [<-|D]; [exact C|exact (B d D)]).
  destruct 1 as [b B|b w B S|b w c' s ws B S C' Sp].
  - apply (sp_end (String c b)), Bc, B.
  - apply (sp_last (String c b) w); auto.
  - apply (sp_word (String c b) w c' s ws); auto.
Qed.
Lemma solid_snoc s c : (s = "" \/ solid s) -> is_ws c = false -> solid (append s (String c "")).
Proof.
  intros S C. split; [destruct s; discriminate|]. intros d D. unfold occurs in D.
  assert (L : list_ascii_of_string (append s (String c "")) = list_ascii_of_string s ++ [c]) by (clear; induction s as [|x s IH]; [reflexivity|cbn; rewrite IH; reflexivity]).
  rewrite L in D. apply in_app_or in D. destruct D as [D|[<-|[]]]; [|exact C]. destruct S as [->|S]; [destruct D|exact (proj2 S d D)].
Qed.
Lemma split_spelled_aux s : forall cur, (cur = "" \/ solid cur) -> spelled (append cur s) (split_ws_aux s cur).
Proof.
  assert (Nil : blank "") by (intros d []).
  induction s as [|c s IH]; intros cur S; cbn [split_ws_aux].
  - rewrite str_app_nil. destruct S as [->|S]; [apply sp_end, Nil|]. destruct cur as [|x cur]; [destruct (proj1 S eq_refl)|]. cbn [is_empty]. apply (sp_last ""); [exact Nil|exact S].
  - destruct (is_ws c) eqn:E.
    + destruct cur as [|x cur]; cbn [is_empty append]; [apply (spelled_blank c s); [exact E|exact (IH "" (or_introl eq_refl))]|].
      destruct S as [S|S]; [discriminate S|]. apply (sp_word "" (String x cur) c s); [exact Nil|exact S|exact E|exact (IH "" (or_introl eq_refl))].
    + replace (append cur (String c s)) with (append (append cur (String c "")) s) by (rewrite str_app_assoc; reflexivity). apply IH. right. apply solid_snoc; assumption.
Qed.
Lemma split_spelled s : spelled s (split_ws s).
Proof. exact (split_spelled_aux s "" (or_introl eq_refl)). Qed.
Lemma says_split l ws : split_ws l = ws -> Nat.even (quotes l) = true -> line_says l ws.
Proof. intros <- E. split; [apply Nat.even_spec, E|apply split_spelled]. Qed.
Lemma other_split ws : str_in "}" ws = false -> match ws with [] => true | w :: _ => negb (str_in w (["header"; "term"; "target::"] ++ field_names)) end = true -> other ws.
Proof.
  intros A B. split; [intros I; apply str_in_spec in I; congruence|]. intros w rest -> I. apply str_in_spec in I. rewrite I in B. discriminate B.
Qed.
