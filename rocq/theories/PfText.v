(** Packet Filter: words of the lines. *)
From Coq Require Import Lia ZifyBool ZifyNat.
From Verif Require Import SpecPf BaseFacts IPFacts PyStrFacts TextProofs WrapProofs GenProofs GenProofs2 CiscoProofs CiscoProofs2.
Local Open Scope string_scope.
Local Open Scope list_scope.
Local Open Scope Z_scope.

(** ** Pieces of a line *)
Definition W (s : string) : list string := split_ws (spread s).
Definition word_ok (w : string) : Prop := w = "{" \/ w = "}" \/ pf_word w.
Record seg (s : string) (ws : list string) : Prop := {
  sg_words : W s = ws;
  sg_closed : has_char backslash s = false;
  sg_ok : Forall word_ok ws }.
Lemma spread_app a b : spread (a ++ b) = (spread a ++ spread b)%string.
Proof.
  induction a as [|c a IH]; [reflexivity|]. cbn [append spread]. rewrite IH.
  destruct (str_in (String c "") ["{"; "}"; "#"]); [reflexivity|]. destruct (Ascii.eqb c ","); reflexivity.
Qed.
Lemma W_space a b : W (a ++ " " ++ b) = W a ++ W b.
Proof. unfold W. rewrite !spread_app. change (spread " ") with " ". apply split_ws_space. Qed.
Lemma W_comma a b : W (a ++ ", " ++ b) = W a ++ W b.
Proof.
  unfold W. rewrite !spread_app. change (spread a ++ spread ", " ++ spread b)%string with (spread a ++ " " ++ String " " (spread b))%string.
  rewrite split_ws_space, split_ws_lead. reflexivity.
Qed.
Lemma pf_chars s : forall_char pf_char s = true -> spread s = s /\ has_char backslash s = false /\ no_ws s.
Proof.
  induction s as [|c s IH]; [intros _; split; [reflexivity|split; reflexivity]|].
  cbn [forall_char]. intros H. apply andb_true_iff in H. destruct H as (H & T). destruct (IH T) as (I1 & I2 & I3).
  unfold pf_char in H. apply negb_true_iff, orb_false_iff in H. destruct H as (H1 & H2).
  assert (N : str_in (String c "") ["{"; "}"; "#"] = false /\ Ascii.eqb c "," = false /\ Ascii.eqb c backslash = false).
  { unfold str_in, memb in *. cbn [existsb] in *. apply orb_false_iff in H2. destruct H2 as (A & H2). apply orb_false_iff in H2. destruct H2 as (B & H2).
    apply orb_false_iff in H2. destruct H2 as (C & H2). apply orb_false_iff in H2. destruct H2 as (D & H2). apply orb_false_iff in H2. destruct H2 as (E & _).
    cbn [String.eqb] in *. rewrite A, B, C. split; [reflexivity|]. split.
    - destruct (Ascii.eqb c ","); [discriminate D|reflexivity].
    - unfold backslash. destruct (Ascii.eqb c "\"); [discriminate E|reflexivity]. }
  destruct N as (N1 & N2 & N3). split; [|split].
  - cbn [spread]. rewrite N1, N2, I1. reflexivity.
  - cbn [has_char]. rewrite N3, I2. reflexivity.
  - unfold no_ws. cbn [forall_char]. rewrite H1. exact I3.
Qed.
Lemma seg_word w : pf_word w -> seg w [w].
Proof.
  intros (N & F). destruct (pf_chars _ F) as (A & B & C). constructor; [|exact B|constructor; [right; right; split; assumption|constructor]].
  unfold W. rewrite A. apply split_ws_word; assumption.
Qed.
Lemma seg_space a b x y : seg a x -> seg b y -> seg (a ++ " " ++ b) (x ++ y).
Proof.
  intros [A1 A2 A3] [B1 B2 B3]. constructor; [rewrite W_space, A1, B1; reflexivity| |apply Forall_app; auto]. rewrite !has_char_app, A2, B2. reflexivity.
Qed.
Lemma seg_comma a b x y : seg a x -> seg b y -> seg (a ++ ", " ++ b) (x ++ y).
Proof.
  intros [A1 A2 A3] [B1 B2 B3]. constructor; [rewrite W_comma, A1, B1; reflexivity| |apply Forall_app; auto]. rewrite !has_char_app, A2, B2. reflexivity.
Qed.
Lemma seg_nil : seg "" [].
Proof. constructor; [reflexivity|reflexivity|constructor]. Qed.
Lemma seg_join l ws : Forall2 seg l ws -> seg (join " " l) (concat ws).
Proof.
  induction 1 as [|s w l ws S F IH]; [apply seg_nil|]. inversion F as [|s' w' l' ws' S' F' E1 E2]; subst.
  - cbn [join concat]. rewrite app_nil_r. exact S.
  - change (join " " (s :: s' :: l')) with (s ++ " " ++ join " " (s' :: l'))%string. change (concat (w :: w' :: ws')) with (w ++ concat (w' :: ws')). apply seg_space; assumption.
Qed.
Lemma seg_words l : (forall w, In w l -> pf_word w) -> seg (join " " l) l.
Proof.
  intros H. replace l with (concat (map (fun w => [w]) l)) at 2 by (clear; induction l as [|a l IH]; [reflexivity|cbn [map concat app]; rewrite IH; reflexivity]).
  apply seg_join. induction l as [|w l IH]; constructor; [apply seg_word, H; left; reflexivity|apply IH; intros x I; apply H; right; exact I].
Qed.
Lemma seg_commas l : (forall w, In w l -> pf_word w) -> seg (join ", " l) l.
Proof.
  induction l as [|w l IH]; intros H; [apply seg_nil|]. assert (S : seg w [w]) by (apply seg_word, H; left; reflexivity).
  destruct l as [|w' l']; [exact S|]. change (join ", " (w :: w' :: l')) with (w ++ ", " ++ join ", " (w' :: l'))%string.
  change (w :: w' :: l') with ([w] ++ (w' :: l')). apply seg_comma; [exact S|]. apply IH. intros x I. apply H. right. exact I.
Qed.
Lemma seg_open : seg "{" ["{"].
Proof. constructor; [reflexivity|reflexivity|constructor; [left; reflexivity|constructor]]. Qed.
Lemma seg_close : seg "}" ["}"].
Proof. constructor; [reflexivity|reflexivity|constructor; [right; left; reflexivity|constructor]]. Qed.
(** A list in braces. *)
Lemma seg_braces s ws : seg s ws -> seg ("{ " ++ s ++ " }") ("{" :: ws ++ ["}"]).
Proof.
  intros S. change ("{ " ++ s ++ " }")%string with ("{" ++ " " ++ (s ++ " " ++ "}"))%string. change ("{" :: ws ++ ["}"]) with (["{"] ++ (ws ++ ["}"])).
  apply seg_space; [exact seg_open|]. apply seg_space; [exact S|exact seg_close].
Qed.
Lemma seg_tight s ws : seg s ws -> seg ("{" ++ s ++ "}") ("{" :: ws ++ ["}"]).
Proof.
  intros [A1 A2 A3]. constructor.
  - unfold W in *. rewrite !spread_app. change (spread "{" ++ spread s ++ spread "}")%string with (String " " ("{" ++ " " ++ (spread s ++ " " ++ "} ")))%string.
    rewrite split_ws_lead, !split_ws_space, A1. reflexivity.
  - rewrite !has_char_app, A2. reflexivity.
  - constructor; [left; reflexivity|]. apply Forall_app. split; [exact A3|]. constructor; [right; left; reflexivity|constructor].
Qed.
Lemma seg_key k s ws : pf_word k -> seg s ws -> seg (k ++ " " ++ s) (k :: ws).
Proof. intros K S. exact (seg_space _ _ _ _ (seg_word k K) S). Qed.
Lemma lit k : negb (is_empty k) && forall_char pf_char k = true -> pf_word k.
Proof. intros H. apply andb_true_iff in H. destruct H as (A & B). split; [intros ->; discriminate A|exact B]. Qed.

(** ** Comments and lines *)
Lemma uncomment_ok ws : Forall word_ok ws -> uncomment ws = ws.
Proof.
  induction 1 as [|w ws H F IH]; [reflexivity|]. cbn [uncomment]. rewrite IH. destruct (String.eqb w "#") eqn:E; [|reflexivity].
  apply String.eqb_eq in E. subst w. destruct H as [H|[H|(_ & H)]]; discriminate H.
Qed.
Lemma seg_pf s ws : seg s ws -> pf_words s = ws.
Proof. intros [A B C]. unfold pf_words. fold (W s). rewrite A. apply uncomment_ok, C. Qed.
Lemma comment_words s : pf_words ("#" ++ s) = [].
Proof.
  unfold pf_words. rewrite spread_app. change (spread "#" ++ spread s)%string with (String " " ("#" ++ " " ++ spread s))%string.
  rewrite split_ws_lead, split_ws_space. reflexivity.
Qed.
Lemma closed_end s : has_char backslash s = false -> goes_on s = false.
Proof.
  induction s as [|c s IH]; [reflexivity|]. cbn [has_char goes_on]. intros H. apply orb_false_iff in H. destruct H as (A & B). destruct s; [exact A|apply IH, B].
Qed.
Lemma goes_on_app a b : b <> "" -> goes_on (a ++ b) = goes_on b.
Proof. intros N. induction a as [|c a IH]; [reflexivity|]. cbn [append goes_on]. rewrite <- IH. destruct (a ++ b)%string eqn:E; [exfalso; destruct a; [apply N, E|discriminate E]|reflexivity]. Qed.
Lemma all_but_app a b : b <> "" -> all_but_last (a ++ b) = (a ++ all_but_last b)%string.
Proof. intros N. induction a as [|c a IH]; [reflexivity|]. cbn [append all_but_last]. rewrite <- IH. destruct (a ++ b)%string eqn:E; [exfalso; destruct a; [apply N, E|discriminate E]|reflexivity]. Qed.
Lemma whole_line l r : goes_on l = false -> whole_lines "" (l :: r) = l :: whole_lines "" r.
Proof. intros H. cbn [whole_lines]. rewrite H. reflexivity. Qed.
Lemma whole_plain ls r : (forall l, In l ls -> goes_on l = false) -> whole_lines "" (ls ++ r) = ls ++ whole_lines "" r.
Proof.
  induction ls as [|l ls IH]; intros H; [reflexivity|]. cbn [app]. rewrite whole_line by (apply H; left; reflexivity). rewrite IH by (intros x I; apply H; right; exact I). reflexivity.
Qed.
Lemma append_assoc a b c : ((a ++ b) ++ c)%string = (a ++ b ++ c)%string.
Proof. induction a as [|x a IH]; [reflexivity|]. cbn [append]. rewrite IH. reflexivity. Qed.
Lemma table_whole l : forall acc before r, whole_lines acc (pf_table_lines before l ++ r) = (acc ++ before ++ join ", " l ++ "}")%string :: whole_lines "" r.
Proof.
  induction l as [|e l IH]; intros acc before r.
  - cbn [pf_table_lines app whole_lines]. rewrite goes_on_app by discriminate. reflexivity.
  - destruct l as [|e' l'].
    + cbn [pf_table_lines app whole_lines join]. rewrite <- append_assoc, goes_on_app by discriminate. change (goes_on "}") with false. cbv iota. rewrite append_assoc. reflexivity.
    + change (pf_table_lines before (e :: e' :: l')) with ((before ++ e ++ ",\")%string :: pf_table_lines "" (e' :: l')).
      cbn [app whole_lines]. rewrite <- append_assoc, goes_on_app by discriminate. change (goes_on ",\") with true. cbv iota. rewrite IH.
      rewrite all_but_app by discriminate. change (all_but_last ",\") with ",". change (join ", " (e :: e' :: l')) with (e ++ ", " ++ join ", " (e' :: l'))%string.
      rewrite !append_assoc. reflexivity.
Qed.

(** ** Comment lines *)
Lemma find_chars n (P : ascii -> Prop) : forall fuel prev rest ch c, (forall x, In x rest -> P x) -> In ch (wrap_find fuel n prev rest) -> In c ch -> P c.
Proof.
  induction fuel as [|f IH]; intros prev rest ch c H I C; [destruct I|]. destruct rest as [|x tl]; [destruct I|]. cbn [wrap_find] in I.
  destruct (wrap_match n prev (x :: tl)) as [|k]; [apply (IH (x :: prev) tl ch c); [intros y Y; apply H; right; exact Y|exact I|exact C]|].
  destruct I as [<-|I]; [apply H, (firstn_In _ _ _ C)|]. apply (IH _ _ ch c (fun y Y => H y (skipn_In _ _ _ Y)) I C).
Qed.
Lemma join_char c sep l : has_char c sep = false -> (forall s, In s l -> has_char c s = false) -> has_char c (join sep l) = false.
Proof.
  intros E H. induction l as [|a l IH]; [reflexivity|]. destruct l as [|b l]; [apply H; left; reflexivity|].
  change (join sep (a :: b :: l)) with (a ++ sep ++ join sep (b :: l))%string. rewrite !has_char_app, E, (H a (or_introl eq_refl)), IH by (intros s I; apply H; right; exact I). reflexivity.
Qed.
Lemma infix_char c s a b w : has_char c s = false -> s = (a ++ w ++ b)%string -> has_char c w = false.
Proof. intros H ->. rewrite !has_char_app in H. apply orb_false_iff in H. destruct H as (_ & H). apply orb_false_iff in H. apply H. Qed.
Lemma strip_char c s : has_char c s = false -> has_char c (strip s) = false.
Proof. intros H. destruct (strip_infix s) as (a & b & E). exact (infix_char _ _ _ _ _ H E). Qed.
Lemma wrap_closed c n l line : Ascii.eqb newline c = false -> (forall s, In s l -> has_char c s = false) -> In line (wrap_words l n lf) -> has_char c line = false.
Proof.
  intros Nc H I. unfold wrap_words in I. apply in_flat_map in I. destruct I as (s & Is & I). apply in_map_iff in I. destruct I as (x & <- & I).
  apply filter_In in I. destruct I as (I & _). apply strip_char. change lf with nl in I. rewrite split_str_newline in I.
  apply piece_infix in I. destruct I as ((a & b & E) & _). refine (infix_char _ _ _ _ _ _ E). apply strip_char. specialize (H s Is).
  unfold wrap_text. destruct (n <? String.length s)%nat; [|exact H]. apply join_char; [cbn [nl has_char]; rewrite Nc; reflexivity|].
  intros w Iw. apply in_map_iff in Iw. destruct Iw as (ch & <- & Ich). rewrite has_char_la. apply negb_false_iff, forallb_forall. intros x0 X0.
  apply (find_chars n (fun x => negb (Ascii.eqb x c) = true) _ _ _ _ _) with (2 := Ich) (3 := X0). intros y Y.
  rewrite <- (string_of_list_ascii_of_string s), has_char_la in H. apply negb_false_iff in H. rewrite forallb_forall in H. apply H, Y.
Qed.
