(** The lines of SRX configurations as the reader takes them. *)
From Coq Require Import Lia ZifyBool ZifyNat.
From Verif Require Import SpecSrx BaseFacts PyStrFacts PortProofs GenProofs GenProofs2 WrapProofs CiscoProofs JuniperText JuniperProofs.
Local Open Scope string_scope.
Local Open Scope list_scope.
Local Open Scope Z_scope.

Lemma chunk_lead n s T : chunk s T -> chunk (srx_line n s) T.
Proof. intros C rest. unfold srx_line. rewrite str_app_assoc, tok_lead by apply spaces_blank. apply C. Qed.
Lemma srx_leaf n line ws : chunk line (ws ++ [";"]) -> renders [srx_line n line] [Leaf ws].
Proof. intros C. apply renders_line. cbn [stmt_toks]. apply chunk_lead, C. Qed.
Lemma srx_block n m head ws lines body : chunk head (ws ++ ["{"]) -> renders lines body ->
  renders ([srx_line n head] ++ lines ++ [srx_line m "}"]) [Block ws body].
Proof.
  intros H B. intros rest. pose proof (renders_block (srx_line n head) ws lines body (chunk_lead n _ _ H) B rest) as R.
  rewrite <- R. rewrite !cat_app.
  change (cat [srx_line m "}"] rest) with ((spaces (4 * m) ++ "}") ++ String newline rest)%string.
  change (cat ["}"] rest) with ("}" ++ String newline rest)%string.
  assert (X : same_words ((spaces (4 * m) ++ "}") ++ String newline rest) ("}" ++ String newline rest)).
  { intros m'. rewrite str_app_assoc, tok_lead by apply spaces_blank. reflexivity. }
  assert (Y : forall ls a b, same_words a b -> same_words (cat ls a) (cat ls b)).
  { induction ls as [|l ls IH]; intros a b S; [exact S|]. change (cat (l :: ls) a) with (l ++ String newline (cat ls a))%string.
    change (cat (l :: ls) b) with (l ++ String newline (cat ls b))%string. apply same_line, IH, S. }
  apply (Y _ _ _ (Y _ _ _ X) false).
Qed.
(** A block the head of which is not indented. *)
Lemma same_cat_any ls a b : same_words a b -> same_words (cat ls a) (cat ls b).
Proof.
  induction ls as [|l ls IH]; intros S; [exact S|]. change (cat (l :: ls) a) with (l ++ String newline (cat ls a))%string.
  change (cat (l :: ls) b) with (l ++ String newline (cat ls b))%string. apply same_line, IH, S.
Qed.
Lemma quiet_map n ls : Forall quiet ls -> Forall quiet (map (srx_line n) ls).
Proof.
  induction 1 as [|l ls Q F IH]; constructor; [|exact IH]. unfold srx_line. clear - Q.
  pose proof (spaces_blank (4 * n)) as B. induction (spaces (4 * n)) as [|c s IH]; [exact Q|]. cbn [forall_char] in B. apply andb_true_iff in B. destruct B as (Bc & B).
  cbn [append]. apply quiet_intro; [apply IH, B|]. intros ->. discriminate Bc.
Qed.
Lemma srx_comment_block n m ls : Forall quiet ls -> renders ([srx_line n "/*"] ++ map (srx_line n) ls ++ [srx_line m "*/"]) [].
Proof.
  intros F rest. apply (quiet_map n) in F. rewrite <- (comment_block _ F rest). rewrite !cat_app.
  change (cat [srx_line n "/*"] ?x) with ((spaces (4 * n) ++ "/*") ++ String newline x)%string.
  change (cat ["/*"] ?x) with ("/*" ++ String newline x)%string. rewrite str_app_assoc, tok_lead by apply spaces_blank.
  assert (X : same_words (cat [srx_line m "*/"] rest) (cat ["*/"] rest)).
  { intros m'. change (cat [srx_line m "*/"] rest) with ((spaces (4 * m) ++ "*/") ++ String newline rest)%string.
    change (cat ["*/"] rest) with ("*/" ++ String newline rest)%string. rewrite str_app_assoc, tok_lead by apply spaces_blank. reflexivity. }
  exact (same_line "/*" _ _ (same_cat_any (map (srx_line n) ls) _ _ X) false).
Qed.
Lemma renders_one line s : renders [line] [s] -> renders [line] [s].
Proof. exact (fun H => H). Qed.
Lemma renders_concat_map {A} (f : A -> list string) (g : A -> list stmt) l : (forall x, In x l -> renders (f x) (g x)) -> renders (flat_map f l) (flat_map g l).
Proof.
  induction l as [|x l IH]; intros H; [apply renders_nil|]. cbn [flat_map]. apply renders_app; [apply H; left; reflexivity|]. apply IH. intros y I. apply H. right. exact I.
Qed.
Lemma renders_leaves {A} (f : A -> string) (g : A -> stmt) l : (forall x, In x l -> renders [f x] [g x]) -> renders (map f l) (map g l).
Proof.
  induction l as [|x l IH]; intros H; [apply renders_nil|]. cbn [map]. apply (renders_app [f x] _ [g x]); [apply H; left; reflexivity|]. apply IH. intros y I. apply H. right. exact I.
Qed.
Lemma chunk_srx_list k l : plain_word k -> plain_words l -> l <> [] -> chunk (srx_list k l) ((k :: "[" :: l ++ ["]"]) ++ [";"]).
Proof.
  intros K P N. unfold srx_list. change ((k :: "[" :: l ++ ["]"]) ++ [";"]) with (k :: (("[" :: l ++ ["]"]) ++ [";"])).
  change (" [ " ++ join " " l ++ " ];")%string with (" " ++ ("[ " ++ join " " l ++ " ];"))%string.
  apply chunk_key; [exact K|]. apply chunk_brackets; assumption.
Qed.

(** ** Comments *)
Lemma firstn_infix {A} k (l : list A) : l = [] ++ firstn k l ++ skipn k l.
Proof. cbn [app]. symmetry. apply firstn_skipn. Qed.
Lemma wrap_find_infix n : forall fuel prev rest ch, In ch (wrap_find fuel n prev rest) -> exists a b, rest = a ++ ch ++ b.
Proof.
  induction fuel as [|fuel IH]; intros prev rest ch I; [destruct I|]. destruct rest as [|c tl]; [destruct I|]. cbn [wrap_find] in I.
  destruct (wrap_match n prev (c :: tl)) as [|k] eqn:E.
  - destruct (IH _ _ _ I) as (a & b & X). exists (c :: a), b. cbn [app]. f_equal. exact X.
  - destruct I as [<-|I].
    + exists [], (skipn (S k) (c :: tl)). symmetry. cbn [app]. apply (firstn_skipn (S k) (c :: tl)).
    + destruct (IH _ _ _ I) as (a & b & X). exists (firstn (S k) (c :: tl) ++ a), b. rewrite <- app_assoc, <- X. symmetry. apply firstn_skipn.
Qed.
Lemma la_inv s : string_of_list_ascii (list_ascii_of_string s) = s.
Proof. apply string_of_list_ascii_of_string. Qed.
Lemma sla_app a b : string_of_list_ascii (a ++ b) = (string_of_list_ascii a ++ string_of_list_ascii b)%string.
Proof. induction a as [|c a IH]; [reflexivity|]. cbn [app string_of_list_ascii append]. rewrite IH. reflexivity. Qed.
Lemma quiet_lines s : (forall line, In line (split_char newline s) -> quiet line) -> quiet s.
Proof.
  intros H (p & r & ->). destruct (infix_piece newline p "*/" r eq_refl) as (v & I & _).
  (* the piece that holds the mark *)
  assert (X : exists v, In v (split_char newline (p ++ "*/" ++ r)%string) /\ contains v "*/").
  { clear. induction p as [|d p IH]; cbn [append].
    - cbn [split_char]. change (Ascii.eqb "*" newline) with false. change (Ascii.eqb "/" newline) with false. cbv iota.
      pose proof (split_char_nonnil newline r). destruct (split_char newline r) as [|w ws]; [congruence|].
      eexists. split; [left; reflexivity|]. exists "", w. reflexivity.
    - cbn [split_char]. destruct IH as (v & I & C). destruct (Ascii.eqb d newline); [exists v; split; [right; exact I|exact C]|].
      destruct (split_char newline (p ++ "*/" ++ r)%string) as [|w ws] eqn:E; [destruct I|]. cbn [append] in E. rewrite E. destruct I as [<-|I].
      + exists (String d w). split; [left; reflexivity|]. destruct C as (a & b & ->). exists (String d a), b. reflexivity.
      + exists v. split; [right; exact I|exact C]. }
  destruct X as (w & J & C). exact (H w J C).
Qed.
Lemma quiet_join ls : Forall quiet ls -> quiet (join nl ls).
Proof.
  induction 1 as [|l ls Q F IH]; [intros (p & r & E); destruct p; discriminate E|]. destruct ls as [|l' ls]; [exact Q|].
  change (join nl (l :: l' :: ls)) with (l ++ String newline (join nl (l' :: ls)))%string. apply quiet_app; [exact Q|exact IH|discriminate|discriminate].
Qed.
Lemma wrap_quiet comments n : quiet_comments comments -> Forall quiet (wrap_words comments n (String newline "")).
Proof.
  intros H. apply Forall_forall. intros x I. unfold wrap_words in I. apply in_flat_map in I. destruct I as (s & Is & I).
  apply in_map_iff in I. destruct I as (y & <- & I). apply filter_In in I. destruct I as (I & _).
  change (String newline "") with nl in I. rewrite split_str_newline in I. apply piece_infix in I. destruct I as ((a & b & E) & _).
  assert (Qs : quiet s) by (apply quiet_lines; intros line J; exact (H s line Is J)).
  assert (Qw : quiet (wrap_text n nl s)).
  { unfold wrap_text. destruct (n <? String.length s)%nat; [|exact Qs]. apply quiet_join. apply Forall_forall. intros z J. apply in_map_iff in J.
    destruct J as (ch & <- & J). apply wrap_find_infix in J. destruct J as (u & v & E'). apply (quiet_sub s); [|exact Qs].
    exists (string_of_list_ascii u), (string_of_list_ascii v). rewrite <- !sla_app, <- E'. symmetry. apply la_inv. }
  destruct (strip_infix (wrap_text n nl s)) as (a1 & b1 & E1). destruct (strip_infix y) as (a2 & b2 & E2).
  apply (quiet_sub y); [exists a2, b2; exact E2|]. apply (quiet_sub (strip (wrap_text n nl s))); [exists a, b; exact E|].
  apply (quiet_sub (wrap_text n nl s)); [exists a1, b1; exact E1|exact Qw].
Qed.
Lemma quiet_comments_app a b : quiet_comments (a ++ b) -> quiet_comments a.
Proof. intros H c l I. apply (H c l). apply in_or_app. left. exact I. Qed.
Lemma srx_comment_silent verbose t : quiet_comments (term_comments t) -> renders (srx_comment verbose t) [].
Proof.
  intros Q. unfold srx_comment. set (l := t_comment t ++ _).
  assert (Ql : quiet_comments l).
  { unfold l, term_comments in *. destruct (t_owner t) as [o|]; [|destruct verbose; exact Q].
    destruct (is_empty o), verbose; try exact Q; rewrite app_nil_r; exact (quiet_comments_app _ _ Q). }
  pose proof (wrap_quiet l 68 Ql) as W. destruct (wrap_words l 68 (String newline "")) as [|c cs]; [apply renders_nil|].
  destruct (negb (is_empty c) && verbose); [|apply renders_nil]. apply srx_comment_block, W.
Qed.
