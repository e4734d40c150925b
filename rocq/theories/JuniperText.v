(** The text of a Junos configuration read back: words, comments, indentation. *)
From Coq Require Import Lia ZifyBool ZifyNat.
From Verif Require Import SpecJuniper BaseFacts PyStrFacts TextProofs CiscoProofs GenProofs.
Local Open Scope string_scope.
Local Open Scope list_scope.
Local Open Scope Z_scope.

(** ** Words *)

Lemma newline_ws : is_ws newline = true. Proof. reflexivity. Qed.
Lemma ws_not_slash c : is_ws c = true -> Ascii.eqb c "/" = false.
Proof. intros H. apply Ascii.eqb_neq. intros ->. discriminate H. Qed.
Lemma special_not_slash c : special c = true -> Ascii.eqb c "/" = false.
Proof. intros H. apply Ascii.eqb_neq. intros ->. discriminate H. Qed.
Lemma tok_ws cur d rest : is_ws d = true -> tokens false cur (String d rest) = flush cur ++ tokens false "" rest.
Proof.
  intros H. cbn [tokens]. rewrite (ws_not_slash _ H), H. cbn [andb].
  destruct rest; [cbn [tokens flush is_empty]; rewrite app_nil_r; reflexivity|reflexivity].
Qed.
Lemma tok_special cur d rest : special d = true ->
  tokens false cur (String d rest) = flush cur ++ String d "" :: tokens false "" rest.
Proof.
  intros H. assert (W : is_ws d = false).
  { destruct (is_ws d) eqn:E; [|reflexivity]. unfold special in H. rewrite !orb_true_iff, !Ascii.eqb_eq in H.
    destruct H as [[[[->| ->]| ->]| ->]| ->]; discriminate E. }
  cbn [tokens]. rewrite (special_not_slash _ H), H, W. cbn [andb]. destruct rest; reflexivity.
Qed.
Lemma plain_char_spec c : plain_char c = true -> is_ws c = false /\ special c = false /\ Ascii.eqb c "*" = false.
Proof. unfold plain_char. rewrite negb_true_iff, !orb_false_iff. tauto. Qed.
Lemma tok_plain w : forall cur d rest, forall_char plain_char w = true -> d <> "*"%char ->
  tokens false cur (w ++ String d rest)%string = tokens false (cur ++ w)%string (String d rest).
Proof.
  induction w as [|c w IH]; intros cur d rest P D.
  - rewrite str_app_nil. reflexivity.
  - cbn [forall_char] in P. apply andb_true_iff in P. destruct P as (Pc & Pw).
    destruct (plain_char_spec _ Pc) as (W & S & T).
    cbn [append tokens].
    assert (N : exists e r, (w ++ String d rest)%string = String e r /\ Ascii.eqb e "*" = false).
    { destruct w as [|e w]; [exists d, rest; split; [reflexivity|apply Ascii.eqb_neq, D]|].
      exists e, (w ++ String d rest)%string. split; [reflexivity|]. cbn [forall_char] in Pw. apply andb_true_iff in Pw.
      apply plain_char_spec. tauto. }
    destruct N as (e & r & E & Ne). rewrite E, Ne, andb_false_r, W, S, <- E. rewrite IH by assumption.
    rewrite str_app_assoc. reflexivity.
Qed.
Lemma plain_flush w : plain_word w -> flush w = [w].
Proof. intros (N & _). unfold flush. destruct w; [congruence|reflexivity]. Qed.
Lemma special_not_star c : special c = true -> c <> "*"%char.
Proof. intros H ->. discriminate H. Qed.
Lemma ws_not_star c : is_ws c = true -> c <> "*"%char.
Proof. intros H ->. discriminate H. Qed.

(** A piece of text that gives these words, whatever follows. *)
Definition chunk (s : string) (T : list string) : Prop :=
  forall rest, tokens false "" (s ++ rest)%string = T ++ tokens false "" rest.
Lemma chunk_nil : chunk "" []. Proof. intros rest. reflexivity. Qed.
Lemma chunk_app a b A B : chunk a A -> chunk b B -> chunk (a ++ b)%string (A ++ B).
Proof. intros HA HB rest. rewrite str_app_assoc, HA, HB, app_assoc. reflexivity. Qed.
Lemma chunk_ws d : is_ws d = true -> chunk (String d "") [].
Proof. intros H rest. cbn [append]. rewrite tok_ws by exact H. reflexivity. Qed.
Lemma chunk_special d : special d = true -> chunk (String d "") [String d ""].
Proof. intros H rest. cbn [append]. rewrite tok_special by exact H. reflexivity. Qed.
Lemma chunk_word_ws w d : plain_word w -> is_ws d = true -> chunk (w ++ String d "")%string [w].
Proof.
  intros P H rest. rewrite str_app_assoc. cbn [append]. rewrite tok_plain by (try apply P; apply ws_not_star, H).
  rewrite tok_ws by exact H. cbn [append]. rewrite (plain_flush _ P). reflexivity.
Qed.
Lemma chunk_word_special w d : plain_word w -> special d = true -> chunk (w ++ String d "")%string [w; String d ""].
Proof.
  intros P H rest. rewrite str_app_assoc. cbn [append]. rewrite tok_plain by (try apply P; apply special_not_star, H).
  rewrite tok_special by exact H. cbn [append]. rewrite (plain_flush _ P). reflexivity.
Qed.
Lemma chunk_words l : plain_words l -> l <> [] -> chunk (join " " l ++ " ")%string l.
Proof.
  induction l as [|w l IH]; [congruence|]. intros P _. destruct l as [|w2 l].
  - cbn [join]. apply (chunk_word_ws w " "); [apply P; left; reflexivity|reflexivity].
  - rewrite join_cons2, !str_app_assoc. rewrite <- (str_app_assoc w " ").
    change (w :: w2 :: l) with ([w] ++ w2 :: l). apply chunk_app.
    + apply (chunk_word_ws w " "); [apply P; left; reflexivity|reflexivity].
    + apply IH; [intros s I; apply P; right; exact I|discriminate].
Qed.
(** Literal pieces. *)
Lemma tok_step cur c d s : tokens false cur (String c (String d s)) =
  if Ascii.eqb c "/" && Ascii.eqb d "*" then flush cur ++ tokens true "" s
  else if is_ws c then flush cur ++ tokens false "" (String d s)
  else if special c then flush cur ++ String c "" :: tokens false "" (String d s)
  else tokens false (append cur (String c "")) (String d s).
Proof. reflexivity. Qed.
Fixpoint closed (s : string) : bool :=
  match s with
  | "" => false
  | String c "" => is_ws c || special c
  | String c s' => negb (Ascii.eqb c "*") && closed s'
  end.
Lemma closed_tokens s : forall cur rest, closed s = true -> Ascii.eqb (match s with String c _ => c | "" => " "%char end) "*" = false ->
  tokens false cur (s ++ rest)%string = tokens false cur s ++ tokens false "" rest.
Proof.
  induction s as [|c s IH]; intros cur rest C N; [discriminate C|].
  destruct s as [|d s].
  - cbn [closed] in C. cbn [append]. apply orb_true_iff in C. destruct C as [W|S].
    + rewrite !tok_ws by exact W. cbn [tokens flush is_empty]. rewrite app_nil_r. reflexivity.
    + rewrite !tok_special by exact S. rewrite <- app_assoc. reflexivity.
  - assert (D : Ascii.eqb d "*" = false).
    { destruct s as [|e s]; [|cbn [closed] in C; destruct (Ascii.eqb d "*"); [rewrite andb_false_r in C; discriminate C|reflexivity]].
      cbn [closed] in C. apply andb_true_iff in C. destruct C as (_ & C). apply Ascii.eqb_neq. intros ->. discriminate C. }
    assert (C' : closed (String d s) = true) by (cbn [closed] in C |- *; apply andb_true_iff in C; apply C).
    change ((String c (String d s)) ++ rest)%string with (String c (String d (s ++ rest))). rewrite !tok_step, D, andb_false_r.
    change (String d (s ++ rest)) with (String d s ++ rest)%string.
    destruct (is_ws c); [|destruct (special c)]; rewrite (IH _ rest C' D).
    + rewrite app_assoc. reflexivity.
    + rewrite <- app_assoc. reflexivity.
    + reflexivity.
Qed.
Lemma chunk_lit s T : closed s = true -> Ascii.eqb (match s with String c _ => c | "" => " "%char end) "*" = false ->
  tokens false "" s = T -> chunk s T.
Proof. intros C N <- rest. apply closed_tokens; assumption. Qed.

(** ** Statements *)

Fixpoint stmt_toks (s : stmt) : list string :=
  match s with
  | Leaf ws => ws ++ [";"]
  | Block ws body => ws ++ "{" :: flat_map stmt_toks body ++ ["}"]
  end.
Definition word_ok (w : string) : bool := negb (String.eqb w ";" || String.eqb w "{" || String.eqb w "}").
Fixpoint stmt_ok (s : stmt) : bool :=
  match s with
  | Leaf ws => forallb word_ok ws
  | Block ws body => forallb word_ok ws && forallb stmt_ok body
  end.
Lemma stmt_ind2 (P : stmt -> Prop) : (forall ws, P (Leaf ws)) -> (forall ws body, Forall P body -> P (Block ws body)) -> forall s, P s.
Proof.
  intros HL HB. fix IH 1. intros [ws|ws body]; [apply HL|]. apply HB. induction body as [|s body IHb]; constructor; [apply IH|exact IHb].
Qed.
Lemma read_words ws : forall r stack done cur, forallb word_ok ws = true ->
  read (ws ++ r) stack done cur = read r stack done (rev ws ++ cur).
Proof.
  induction ws as [|w ws IH]; intros r stack done cur H; [reflexivity|]. cbn [forallb] in H. apply andb_true_iff in H.
  destruct H as (Hw & H). unfold word_ok in Hw. apply negb_true_iff in Hw. rewrite !orb_false_iff in Hw.
  destruct Hw as ((A & B) & C). cbn [app read]. rewrite A, B, C, IH by exact H. cbn [rev]. rewrite <- app_assoc. reflexivity.
Qed.
Lemma read_stmt s : stmt_ok s = true -> forall r stack done, read (stmt_toks s ++ r) stack done [] = read r stack (s :: done) [].
Proof.
  induction s as [ws|ws body IH] using stmt_ind2; intros H r stack done; cbn [stmt_toks stmt_ok] in *.
  - rewrite <- app_assoc, read_words by exact H. cbn [app read String.eqb Ascii.eqb Bool.eqb]. rewrite app_nil_r, rev_involutive. reflexivity.
  - apply andb_true_iff in H. destruct H as (Hw & Hb). rewrite <- app_assoc, read_words by exact Hw.
    cbn [app read String.eqb Ascii.eqb Bool.eqb]. rewrite app_nil_r, rev_involutive.
    assert (L : forall l, Forall (fun s => stmt_ok s = true -> forall r stack done, read (stmt_toks s ++ r) stack done [] = read r stack (s :: done) []) l ->
      forallb stmt_ok l = true -> forall r stack done, read (flat_map stmt_toks l ++ r) stack done [] = read r stack (rev l ++ done) []).
    { clear. induction l as [|x l IHl]; intros F Hl r stack done; [reflexivity|].
      inversion F as [|y l' Fx Fl]; subst. cbn [forallb] in Hl. apply andb_true_iff in Hl. destruct Hl as (Hx & Hl).
      cbn [flat_map rev]. rewrite <- app_assoc, Fx by exact Hx. rewrite IHl by assumption. rewrite <- app_assoc. reflexivity. }
    rewrite <- app_assoc, (L body IH Hb). cbn [app read String.eqb Ascii.eqb Bool.eqb]. rewrite app_nil_r, rev_involutive. reflexivity.
Qed.
Lemma read_stmts l : forallb stmt_ok l = true -> forall r stack done, read (flat_map stmt_toks l ++ r) stack done [] = read r stack (rev l ++ done) [].
Proof.
  induction l as [|x l IH]; intros H r stack done; [reflexivity|]. cbn [forallb] in H. apply andb_true_iff in H. destruct H as (Hx & H).
  cbn [flat_map rev]. rewrite <- app_assoc, read_stmt by exact Hx. rewrite IH by exact H. rewrite <- app_assoc. reflexivity.
Qed.

(** ** Lines *)

Definition cat (lines : list string) (rest : string) : string := fold_right (fun l s => append l (String newline s)) rest lines.
Lemma cat_app a b rest : cat (a ++ b) rest = cat a (cat b rest).
Proof. apply fold_right_app. Qed.
Definition renders (lines : list string) (l : list stmt) : Prop :=
  forall rest, tokens false "" (cat lines rest) = flat_map stmt_toks l ++ tokens false "" rest.
Lemma renders_nil : renders [] []. Proof. intros rest. reflexivity. Qed.
Lemma renders_app a b x y : renders a x -> renders b y -> renders (a ++ b) (x ++ y).
Proof. intros A B rest. rewrite cat_app, A, B, flat_map_app, app_assoc. reflexivity. Qed.
Lemma chunk_line s T : chunk s T -> forall rest, tokens false "" (s ++ String newline rest)%string = T ++ tokens false "" rest.
Proof. intros C rest. rewrite C, tok_ws by reflexivity. reflexivity. Qed.
Lemma renders_line line s : chunk line (stmt_toks s) -> renders [line] [s].
Proof. intros C rest. cbn [cat fold_right flat_map]. rewrite app_nil_r. apply chunk_line, C. Qed.
Lemma renders_block head ws lines body : chunk head (ws ++ ["{"]) -> renders lines body ->
  renders ([head] ++ lines ++ ["}"]) [Block ws body].
Proof.
  intros H B rest. rewrite !cat_app. change (cat ["}"] rest) with (String "}" (String newline rest)).
  change (cat [head] (cat lines (String "}" (String newline rest)))) with (head ++ String newline (cat lines (String "}" (String newline rest))))%string.
  rewrite (chunk_line _ _ H), B, tok_special by reflexivity. cbn [app flush is_empty].
  rewrite tok_ws by reflexivity. cbn [flush is_empty app flat_map stmt_toks]. rewrite app_nil_r, <- !app_assoc. cbn [app].
  rewrite <- app_assoc. reflexivity.
Qed.
Lemma renders_map {A} (f : A -> list string) (g : A -> stmt) l : (forall x, In x l -> renders (f x) [g x]) -> renders (flat_map f l) (map g l).
Proof.
  induction l as [|x l IH]; intros H; [apply renders_nil|]. cbn [flat_map map]. apply (renders_app _ _ [g x] (map g l)).
  - apply H. left. reflexivity.
  - apply IH. intros y I. apply H. right. exact I.
Qed.

(** ** Comments *)

Definition quiet (s : string) : Prop := ~ contains s "*/".
Lemma quiet_cons c s : quiet (String c s) -> quiet s /\ (c = "*"%char -> match s with String d _ => d <> "/"%char | "" => True end).
Proof.
  intros Q. split.
  - intros (p & r & ->). apply Q. exists (String c p), r. reflexivity.
  - intros ->. destruct s as [|d s]; [exact I|]. intros ->. apply Q. exists "", s. reflexivity.
Qed.
Lemma quiet_intro c s : quiet s -> (c = "*"%char -> match s with String d _ => d <> "/"%char | "" => True end) -> quiet (String c s).
Proof.
  intros Q H (p & r & E). destruct p as [|e p].
  - injection E as -> ->. exact (H eq_refl eq_refl).
  - injection E as -> ->. apply Q. exists p, r. reflexivity.
Qed.
Lemma tok_comment s : forall rest, quiet s -> tokens true "" (s ++ String newline rest)%string = tokens true "" (String newline rest).
Proof.
  induction s as [|c s IH]; intros rest Q; [reflexivity|]. destruct (quiet_cons _ _ Q) as (Qs & N).
  cbn [append tokens]. assert (E : exists d r, (s ++ String newline rest)%string = String d r /\ (c = "*"%char -> d <> "/"%char)).
  { destruct s as [|d s]; [exists newline, rest; split; [reflexivity|intros _ X; discriminate X]|]. exists d, (s ++ String newline rest)%string. auto. }
  destruct E as (d & r & E & H). rewrite E.
  replace (Ascii.eqb c "*" && Ascii.eqb d "/") with false; [|symmetry; destruct (Ascii.eqb c "*") eqn:Ec; [|reflexivity];
    apply Ascii.eqb_eq in Ec; apply Ascii.eqb_neq; auto].
  rewrite <- E. apply IH, Qs.
Qed.
Lemma tok_comment_nl rest : tokens true "" (String newline rest) = tokens true "" rest.
Proof. destruct rest; reflexivity. Qed.
Lemma tok_close s : forall rest, quiet s -> tokens true "" (s ++ "*/" ++ rest)%string = tokens false "" rest.
Proof.
  induction s as [|c s IH]; intros rest Q; [reflexivity|]. destruct (quiet_cons _ _ Q) as (Qs & N).
  cbn [append tokens]. assert (E : exists d r, (s ++ "*/" ++ rest)%string = String d r /\ (c = "*"%char -> d <> "/"%char)).
  { destruct s as [|d s]; [exists "*"%char, (String "/" rest); split; [reflexivity|intros _ X; discriminate X]|].
    exists d, (s ++ "*/" ++ rest)%string. auto. }
  destruct E as (d & r & E & H). change (String "*" (String "/" rest)) with ("*/" ++ rest)%string. rewrite E.
  replace (Ascii.eqb c "*" && Ascii.eqb d "/") with false; [|symmetry; destruct (Ascii.eqb c "*") eqn:Ec; [|reflexivity];
    apply Ascii.eqb_eq in Ec; apply Ascii.eqb_neq; auto].
  rewrite <- E. apply IH, Qs.
Qed.
Lemma quiet_app a d b : quiet a -> quiet b -> d <> "/"%char -> d <> "*"%char -> quiet (a ++ String d b)%string.
Proof.
  intros A B D1 D2. induction a as [|c a IH]; [apply quiet_intro; [exact B|congruence]|].
  destruct (quiet_cons _ _ A) as (Qa & N). cbn [append]. apply quiet_intro; [apply IH, Qa|].
  intros E. specialize (N E). destruct a as [|e a]; [exact D1|exact N].
Qed.

(** ** Indentation *)

Lemma tok_step_true cur c d s : tokens true cur (String c (String d s)) =
  if Ascii.eqb c "*" && Ascii.eqb d "/" then tokens false "" s else tokens true "" (String d s).
Proof. reflexivity. Qed.
Lemma tok_congr a b d1 d2 a' b' : a = String d1 a' -> b = String d2 b' -> is_ws d1 = true -> is_ws d2 = true ->
  (forall m cur, tokens m cur a = tokens m cur b) ->
  forall n x, (String.length x <= n)%nat -> forall m cur, tokens m cur (x ++ a)%string = tokens m cur (x ++ b)%string.
Proof.
  intros Ea Eb W1 W2 H. induction n as [|n IH]; intros x L m cur.
  - destruct x; [apply H|cbn [String.length] in L; lia].
  - destruct x as [|c [|d x]]; [apply H| |].
    + subst a b. cbn [append]. destruct m.
      * rewrite !tok_step_true. 
        assert (N1 : Ascii.eqb d1 "/" = false) by (apply ws_not_slash, W1). assert (N2 : Ascii.eqb d2 "/" = false) by (apply ws_not_slash, W2).
        rewrite N1, N2, !andb_false_r. apply H.
      * rewrite !tok_step. assert (N1 : Ascii.eqb d1 "*" = false) by (apply Ascii.eqb_neq, ws_not_star, W1).
        assert (N2 : Ascii.eqb d2 "*" = false) by (apply Ascii.eqb_neq, ws_not_star, W2).
        rewrite N1, N2, !andb_false_r, !H. reflexivity.
    + cbn [append String.length] in *. destruct m.
      * rewrite !tok_step_true. rewrite (IH x) by lia. change (String d (x ++ a)) with (String d x ++ a)%string.
        change (String d (x ++ b)) with (String d x ++ b)%string. rewrite (IH (String d x)) by (cbn [String.length]; lia). reflexivity.
      * rewrite !tok_step. rewrite (IH x) by lia. change (String d (x ++ a)) with (String d x ++ a)%string.
        change (String d (x ++ b)) with (String d x ++ b)%string. rewrite !(IH (String d x)) by (cbn [String.length]; lia). reflexivity.
Qed.
Lemma tok_ws_true cur d s : is_ws d = true -> tokens true cur (String d s) = tokens true "" s.
Proof.
  intros H. destruct s as [|e s]; [reflexivity|]. rewrite tok_step_true.
  replace (Ascii.eqb d "*") with false; [reflexivity|]. symmetry. apply Ascii.eqb_neq, ws_not_star, H.
Qed.
Lemma tok_blank b : forall_char is_ws b = true -> forall m cur rest,
  tokens m cur (b ++ String newline rest)%string = tokens m cur (String newline rest).
Proof.
  induction b as [|c b IH]; intros W m cur rest; [reflexivity|]. cbn [forall_char] in W. apply andb_true_iff in W. destruct W as (Wc & W).
  cbn [append]. destruct m.
  - rewrite !tok_ws_true by (exact Wc || reflexivity). rewrite IH by exact W. apply tok_ws_true. reflexivity.
  - rewrite tok_ws by exact Wc. rewrite IH by exact W. rewrite !tok_ws by reflexivity. reflexivity.
Qed.
Lemma tok_lead b : forall_char is_ws b = true -> forall m rest, tokens m "" (b ++ rest)%string = tokens m "" rest.
Proof.
  induction b as [|c b IH]; intros W m rest; [reflexivity|]. cbn [forall_char] in W. apply andb_true_iff in W. destruct W as (Wc & W).
  cbn [append]. destruct m.
  - rewrite !tok_ws_true by exact Wc. apply IH, W.
  - rewrite tok_ws by exact Wc. apply IH, W.
Qed.
Lemma lstrip_blank s : exists a, s = (a ++ lstrip s)%string /\ forall_char is_ws a = true.
Proof.
  induction s as [|c s (a & E & W)]; [exists ""; split; reflexivity|]. cbn [lstrip]. destruct (is_ws c) eqn:C.
  - exists (String c a). split; [cbn [append]; rewrite <- E; reflexivity|]. cbn [forall_char]. rewrite C, W. reflexivity.
  - exists "". split; reflexivity.
Qed.
Lemma rstrip_blank s : exists b, s = (rstrip s ++ b)%string /\ forall_char is_ws b = true.
Proof.
  induction s as [|c s (b & E & W)]; [exists ""; split; reflexivity|]. cbn [rstrip]. destruct (is_ws c && is_empty (rstrip s)) eqn:C.
  - apply andb_true_iff in C. destruct C as (C & D). exists (String c s). split; [reflexivity|].
    destruct (rstrip s); [|discriminate D]. cbn [append] in E. subst s. cbn [forall_char]. rewrite C, W. reflexivity.
  - exists b. split; [cbn [append]; rewrite <- E; reflexivity|exact W].
Qed.
Lemma spaces_blank n : forall_char is_ws (spaces n) = true.
Proof. unfold spaces. induction (Z.to_nat n) as [|k IH]; [reflexivity|]. cbn. exact IH. Qed.
(** Blanks at the ends of a line do not count. *)
Lemma tok_indent n line rest m : tokens m "" ((spaces n ++ strip line) ++ String newline rest)%string = tokens m "" (line ++ String newline rest)%string.
Proof.
  rewrite str_app_assoc, tok_lead by apply spaces_blank. unfold strip.
  destruct (lstrip_blank line) as (a & Ea & Wa). destruct (rstrip_blank (lstrip line)) as (b & Eb & Wb).
  transitivity (tokens m "" (lstrip line ++ String newline rest)%string);
    [|rewrite Ea at 2; rewrite str_app_assoc; symmetry; apply tok_lead, Wa].
  transitivity (tokens m "" (rstrip (lstrip line) ++ b ++ String newline rest)%string);
    [|rewrite <- str_app_assoc, <- Eb; reflexivity].
  destruct b as [|c b].
  - reflexivity.
  - symmetry. eapply (tok_congr _ _ c newline); try reflexivity.
    + cbn [forall_char] in Wb. apply andb_true_iff in Wb. tauto.
    + intros m' cur. apply tok_blank, Wb.
Qed.
Definition same_words (a b : string) : Prop := forall m, tokens m "" a = tokens m "" b.
Lemma same_line line a b : same_words a b -> same_words (line ++ String newline a)%string (line ++ String newline b)%string.
Proof.
  intros H m. eapply (tok_congr _ _ newline newline); try reflexivity. intros [] cur.
  - rewrite !tok_ws_true by reflexivity. apply H.
  - rewrite !tok_ws by reflexivity. rewrite H. reflexivity.
Qed.
Definition indented (out line : string) : Prop := exists n, out = (spaces n ++ strip line)%string.
Lemma same_cat outs lines : Forall2 indented outs lines -> forall a b, same_words a b -> same_words (cat outs a) (cat lines b).
Proof.
  induction 1 as [|o l outs lines (n & ->) F IH]; intros a b H; [exact H|]. intros m.
  change (cat ((spaces n ++ strip l)%string :: outs) a) with ((spaces n ++ strip l) ++ String newline (cat outs a))%string.
  change (cat (l :: lines) b) with (l ++ String newline (cat lines b))%string.
  rewrite tok_indent. apply same_line, IH, H.
Qed.
Lemma append_line_out init i acc line i' acc' : append_line init (i, acc) line = Ok (i', acc') ->
  exists o, acc' = o :: acc /\ indented o line.
Proof.
  unfold append_line. intros H.
  destruct (_ <? init); [discriminate H|]. destruct (_ <? init) in H; [discriminate H|].
  injection H as _ <-. eexists. split; [reflexivity|]. eexists. reflexivity.
Qed.
Lemma append_lines_out init ls : forall i acc i' acc', append_lines init (i, acc) ls = Ok (i', acc') ->
  exists outs, acc' = rev outs ++ acc /\ Forall2 indented outs ls.
Proof.
  induction ls as [|l ls IH]; intros i acc i' acc' H; cbn [append_lines bind] in H.
  - injection H as _ <-. exists []. split; [reflexivity|constructor].
  - destruct (append_line init (i, acc) l) as [(j, acc1)|e] eqn:E; [|discriminate H].
    destruct (append_line_out _ _ _ _ _ _ E) as (o & -> & I). destruct (IH _ _ _ _ H) as (outs & -> & F).
    exists (o :: outs). split; [cbn [rev]; rewrite <- app_assoc; reflexivity|constructor; assumption].
Qed.

(** ** Comments of terms and addresses give no words *)

Lemma tok_comment_lines ls : Forall quiet ls -> forall rest, tokens true "" (cat ls rest) = tokens true "" rest.
Proof.
  induction 1 as [|l ls Q F IH]; intros rest; [reflexivity|].
  change (cat (l :: ls) rest) with (l ++ String newline (cat ls rest))%string. rewrite tok_comment, tok_comment_nl by exact Q. apply IH.
Qed.
Lemma comment_block ls : Forall quiet ls -> renders (["/*"] ++ ls ++ ["*/"]) [].
Proof.
  intros F rest. rewrite !cat_app. change (cat ["*/"] rest) with ("" ++ "*/" ++ String newline rest)%string.
  change (cat ["/*"] (cat ls ("" ++ "*/" ++ String newline rest)%string)) with ("/*" ++ String newline (cat ls ("" ++ "*/" ++ String newline rest)))%string.
  change (tokens false "" ("/*" ++ String newline (cat ls ("" ++ "*/" ++ String newline rest))))
    with (tokens true "" (String newline (cat ls ("" ++ "*/" ++ String newline rest)%string))).
  rewrite tok_comment_nl, tok_comment_lines, tok_close by (try exact F; intros (p & r & E); destruct p; discriminate E).
  rewrite tok_ws by reflexivity. reflexivity.
Qed.
Lemma quiet_b s : substring_of "*/" s = false -> quiet s.
Proof. intros H C. apply substring_of_spec in C. congruence. Qed.
Lemma quiet_sub s t : contains s t -> quiet s -> quiet t.
Proof. intros H Q C. exact (Q (contains_trans _ _ _ H C)). Qed.
Lemma quiet_star l : quiet l -> quiet ("** " ++ l)%string.
Proof. intros Q. change ("** " ++ l)%string with ("**" ++ String " " l)%string. apply quiet_app; [apply quiet_b; reflexivity|exact Q|discriminate|discriminate]. Qed.

Lemma substring_infix : forall s n m, exists a b, s = (a ++ substring n m s ++ b)%string.
Proof.
  induction s as [|c s IH]; intros n m.
  - exists "", "". destruct n, m; reflexivity.
  - destruct n as [|n].
    + destruct m as [|m]; [exists "", (String c s); reflexivity|]. destruct (IH 0%nat m) as (a & b & E).
      destruct (substring_prefix m s) as (q & Eq). exists "", q. cbn [append substring]. rewrite <- Eq. reflexivity.
    + destruct (IH n m) as (a & b & E). exists (String c a), b. cbn [append substring]. rewrite <- E. reflexivity.
Qed.
Lemma slice_from_contains s n : contains s (slice_from s n).
Proof. destruct (substring_infix s (Z.to_nat n) (String.length s)) as (a & b & E). exists a, b. exact E. Qed.
Lemma slice_to_contains s n : contains s (slice_to s n).
Proof. destruct (slice_to_prefix s n) as (q & E). exists "", q. exact E. Qed.
Lemma strip_contains s : contains s (strip s).
Proof.
  destruct (lstrip_blank s) as (a & Ea & _). destruct (rstrip_blank (lstrip s)) as (b & Eb & _).
  exists a, b. unfold strip. rewrite <- Eb. exact Ea.
Qed.
Lemma spaces_quiet n x : quiet x -> quiet (spaces n ++ x)%string.
Proof.
  intros Q. unfold spaces. induction (Z.to_nat n) as [|k IH]; [exact Q|]. cbn [repeat string_of_list_ascii append]. apply quiet_intro; [exact IH|discriminate].
Qed.
Lemma comment_loop_quiet f ind len : forall cm text, quiet cm -> quiet text -> Forall quiet (comment_loop f ind len cm text).
Proof.
  induction f as [|f IH]; intros cm text C T; cbn [comment_loop]; [constructor|]. destruct (is_empty text); [constructor|]. constructor.
  - cbn [append]. apply quiet_app; try discriminate; [exact C|]. eapply quiet_sub; [apply strip_contains|]. eapply quiet_sub; [apply slice_to_contains|exact T].
  - apply IH; [apply spaces_quiet, quiet_b; reflexivity|]. eapply quiet_sub; [apply slice_from_contains|exact T].
Qed.
Lemma close_last_tokens ls : Forall quiet ls -> ls <> [] -> forall rest, tokens true "" (cat (close_last ls) rest) = tokens false "" rest.
Proof.
  induction 1 as [|l ls Q F IH]; [congruence|]. intros _ rest. destruct ls as [|l2 ls].
  - cbn [close_last]. change (cat [(l ++ " */")%string] rest) with ((l ++ " */") ++ String newline rest)%string.
    rewrite str_app_assoc. change (" */" ++ String newline rest)%string with (" " ++ "*/" ++ String newline rest)%string.
    rewrite <- str_app_assoc. rewrite tok_close; [rewrite tok_ws by reflexivity; reflexivity|].
    apply quiet_app; [exact Q|intros (p & r & E); destruct p; discriminate E|discriminate|discriminate].
  - change (close_last (l :: l2 :: ls)) with (l :: close_last (l2 :: ls)).
    change (cat (l :: close_last (l2 :: ls)) rest) with (l ++ String newline (cat (close_last (l2 :: ls)) rest))%string.
    rewrite tok_comment, tok_comment_nl by exact Q. apply IH. discriminate.
Qed.
Lemma close_last_prefix x l ls rest : cat (close_last ((x ++ l)%string :: ls)) rest = (x ++ cat (close_last (l :: ls)) rest)%string.
Proof. destruct ls; cbn [close_last cat fold_right]; rewrite !str_app_assoc; reflexivity. Qed.
Lemma address_comment_silent c exclude text : renders (address_comment c exclude text) [].
Proof.
  unfold address_comment. destruct (jc_noverbose c || is_empty text || substring_of "/*" text || substring_of "*/" text) eqn:E; [apply renders_nil|].
  rewrite !orb_false_iff in E. destruct E as (((_ & E) & _) & Q). apply quiet_b in Q.
  set (t := slice_to text 132). assert (Qt : quiet t) by (eapply quiet_sub; [apply slice_to_contains|exact Q]).
  assert (N : t <> "").
  { unfold t. destruct text as [|ch text]; [discriminate E|]. discriminate. }
  set (ind := (if exclude then 21 else 14) + 12). clearbody t. intros rest. destruct t as [|ch t]; [congruence|].
  cbn [String.length comment_loop is_empty]. set (cut := if 77 - ind <? slen (String ch t) then _ else _). clearbody cut.
  rewrite close_last_prefix. change (tokens false "" (" /*" ++ cat (close_last ((" " ++ strip (slice_to (String ch t) cut)) ::
    comment_loop (String.length t) ind (77 - ind) (spaces ind ++ "**") (slice_from (String ch t) cut))%string) rest)%string) with
    (tokens true "" (cat (close_last ((" " ++ strip (slice_to (String ch t) cut)) ::
    comment_loop (String.length t) ind (77 - ind) (spaces ind ++ "**") (slice_from (String ch t) cut))%string) rest)%string).
  rewrite close_last_tokens; [reflexivity| |discriminate]. constructor.
  - cbn [append]. apply quiet_intro; [|discriminate]. eapply quiet_sub; [apply strip_contains|]. eapply quiet_sub; [apply slice_to_contains|exact Qt].
  - apply comment_loop_quiet; [apply spaces_quiet, quiet_b; reflexivity|]. eapply quiet_sub; [apply slice_from_contains|exact Qt].
Qed.
Lemma term_comment_silent c t : quiet_comments (term_comments t) -> renders (term_comment_lines c t) [].
Proof.
  intros H. unfold term_comment_lines.
  set (comments := t_comment t ++ (if given (t_owner t) then [append "Owner: " (match t_owner t with Some o => o | None => "" end)] else [])).
  assert (I : forall x, In x comments -> In x (term_comments t)).
  { intros x. unfold comments, term_comments. rewrite !in_app_iff. intros [J|J]; [left; exact J|right]. unfold given in J.
    destruct (t_owner t) as [o|]; [|destruct J]. destruct (nonempty o); [exact J|destruct J]. }
  destruct (jc_noverbose c); [apply renders_nil|]. destruct (some comments); [|apply renders_nil].
  apply comment_block, Forall_forall. intros l J. apply in_flat_map in J. destruct J as (cm & J & K). apply in_map_iff in K.
  destruct K as (x & <- & K). apply quiet_star. exact (H cm x (I _ J) K).
Qed.
