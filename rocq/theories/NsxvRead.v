(** NSX-V sections: reading back the text of a tree. *)
From Coq Require Import Lia ZifyBool ZifyNat.
From Verif Require Import BaseFacts PyStrFacts TextProofs SpecNsxv.
Local Open Scope string_scope.
Local Open Scope list_scope.
Local Open Scope Z_scope.

(** ** The text of a tree *)
Fixpoint xtext (x : xml) : string :=
  match x with
  | Text s => s
  | Elem h kids => "<" ++ h ++ ">" ++ (fix all (l : list xml) : string := match l with [] => "" | k :: l => xtext k ++ all l end) kids ++ "</" ++ tag_of h ++ ">"
  end%string.
Definition xtexts (l : list xml) : string := nv_cat (map xtext l).
Lemma xtext_elem h kids : xtext (Elem h kids) = ("<" ++ h ++ ">" ++ xtexts kids ++ "</" ++ tag_of h ++ ">")%string.
Proof. cbn [xtext]. do 3 f_equal. f_equal. induction kids as [|k kids IH]; [reflexivity|]. unfold xtexts in *. cbn [map nv_cat fold_right]. rewrite IH. reflexivity. Qed.
Definition text_first (l : list xml) : bool := match l with Text _ :: _ => true | _ => false end.
Inductive good : list xml -> Prop :=
| good_nil : good []
| good_elem h k l : head_ok h = true -> good k -> good l -> good (Elem h k :: l)
| good_text s l : s <> "" -> has_char "<" s = false -> has_char "&" s = false -> good l -> text_first l = false -> good (Text s :: l).
Lemma app_assoc_str a b c : ((a ++ b) ++ c)%string = (a ++ b ++ c)%string.
Proof. induction a as [|x a IH]; [reflexivity|]. cbn [append]. rewrite IH. reflexivity. Qed.
Lemma len_app a b : String.length (a ++ b)%string = (String.length a + String.length b)%nat.
Proof. induction a as [|x a IH]; [reflexivity|]. cbn [append String.length]. rewrite IH. reflexivity. Qed.
Lemma before_mid c a b : has_char c a = false -> before_char c (a ++ String c b)%string = a.
Proof. intros H. rewrite before_char_app by exact H. cbn [before_char]. rewrite Ascii.eqb_refl. apply str_app_nil. Qed.
Lemma after_mid c a b : has_char c a = false -> after_char c (a ++ String c b)%string = b.
Proof. intros H. rewrite after_char_app by exact H. cbn [after_char]. rewrite Ascii.eqb_refl. reflexivity. Qed.
Lemma has_mid c a b : has_char c (a ++ String c b)%string = true.
Proof. induction a as [|x a IH]; cbn [append has_char]; [rewrite Ascii.eqb_refl; reflexivity|]. rewrite IH. apply orb_true_r. Qed.
Lemma from_mid c a b : has_char c a = false -> from_char c (a ++ b)%string = from_char c b.
Proof. induction a as [|x a IH]; [reflexivity|]. cbn [append has_char from_char]. intros H. apply orb_false_iff in H. destruct H as (H1 & H2). rewrite H1. exact (IH H2). Qed.
Lemma after_prefix_app p s : after_prefix p (p ++ s)%string = Some s.
Proof. induction p as [|c p IH]; [destruct s; reflexivity|]. cbn [append after_prefix]. rewrite Ascii.eqb_refl. exact IH. Qed.
Lemma no_slash h u : h <> "" -> starts_with "/" h = false -> starts_with "/" (h ++ u)%string = false.
Proof.
  intros N. destruct h as [|c h]; [congruence|]. unfold starts_with. cbn [append String.prefix]. destruct (ascii_dec "/" c); [|reflexivity]. destruct h; discriminate.
Qed.
(** What can follow the children of an element. *)
Definition at_end (s : string) : Prop := s = "" \/ exists r, s = String "<" (String "/" r).
Lemma nodes_head l rest : good l -> at_end rest -> text_first l = false ->
  (xtexts l ++ rest)%string = "" \/ exists r, (xtexts l ++ rest)%string = String "<" r.
Proof.
  intros G E T. destruct G as [|h k l|]; [|right|discriminate T].
  - destruct E as [->|(r & ->)]; [left; reflexivity|right; eexists; reflexivity].
  - unfold xtexts. cbn [map nv_cat fold_right]. rewrite xtext_elem. eexists. cbn [append]. reflexivity.
Qed.
Lemma before_end c s : s = "" \/ (exists r, s = String c r) -> before_char c s = "" /\ from_char c s = s.
Proof. intros [->|(r & ->)]; [split; reflexivity|]. cbn [before_char from_char]. rewrite Ascii.eqb_refl. split; reflexivity. Qed.
Lemma read_texts : forall fuel l rest, good l -> at_end rest -> (String.length (xtexts l) < fuel)%nat -> read_nodes fuel (xtexts l ++ rest) = Some (l, rest).
Proof.
  induction fuel as [|f IH]; intros l rest G E L; [lia|]. destruct G as [|h k l H G1 G2|s l N H1 H2 G T].
  - destruct E as [->|(r & ->)]; [reflexivity|destruct r; reflexivity].
  - unfold xtexts in L |- *. cbn [map nv_cat fold_right] in L |- *. fold (nv_cat (map xtext l)) in L |- *. fold (xtexts l) in L |- *. rewrite xtext_elem in *.
    rewrite !len_app in L. cbn [String.length] in L.
    rewrite !app_assoc_str. cbn [append read_nodes]. change (Ascii.eqb "<" "<") with true. cbv iota.
    unfold head_ok in H. repeat (apply andb_true_iff in H; destruct H as (H & ?)). 
    repeat match goal with X : negb _ = true |- _ => apply negb_true_iff in X end.
    assert (Sl : forall u, starts_with "/" (h ++ u)%string = false).
    { intros u. apply no_slash; [destruct h; discriminate|assumption]. }
    rewrite Sl. cbv zeta. rewrite before_mid, after_mid, has_mid by assumption. unfold head_ok.
    repeat match goal with X : _ = false |- _ => rewrite X end. cbn [negb andb].
    replace (xtexts k ++ String "<" (String "/" (tag_of h ++ String ">" (xtexts l ++ rest))))%string with (xtexts k ++ ("</" ++ tag_of h ++ ">" ++ xtexts l ++ rest))%string by reflexivity.
    rewrite IH; [|exact G1|right; eexists; reflexivity|lia].
    change (String "<" (String "/" (tag_of h ++ ">"))) with ("</" ++ tag_of h ++ ">")%string.
    replace ("</" ++ tag_of h ++ ">" ++ xtexts l ++ rest)%string with (("</" ++ tag_of h ++ ">") ++ (xtexts l ++ rest))%string by (rewrite !app_assoc_str; reflexivity).
    rewrite after_prefix_app. rewrite IH; [reflexivity|exact G2|exact E|lia].
  - unfold xtexts in L |- *. cbn [map nv_cat fold_right xtext] in L |- *. fold (nv_cat (map xtext l)) in L |- *. fold (xtexts l) in L |- *. rewrite len_app in L. rewrite app_assoc_str.
    assert (Ns : (0 < String.length s)%nat) by (destruct s; [congruence|cbn; lia]).
    destruct (before_end "<" _ (nodes_head l rest G E T)) as (B1 & B2).
    destruct s as [|c s]; [congruence|]. cbn [has_char] in H1. apply orb_false_iff in H1. destruct H1 as (H0 & H1).
    cbn [append read_nodes]. rewrite H0. cbv zeta. change (String c (s ++ xtexts l ++ rest)) with (String c s ++ (xtexts l ++ rest))%string.
    assert (Hs : has_char "<" (String c s) = false) by (cbn [has_char]; rewrite H0, H1; reflexivity).
    rewrite (before_char_app _ _ _ Hs), B1, str_app_nil, H2, (from_mid _ _ _ Hs), B2. rewrite IH; [reflexivity|exact G|exact E|lia].
Qed.
Lemma read_document_ok tags h kids : head_ok h = true -> good kids ->
  (forall r, after_comment (tags ++ String newline ("-->" ++ r)) = Some r) ->
  read_document ("<!--" ++ tags ++ String newline ("-->" ++ xtext (Elem h kids) ++ String newline "")) = Some (Elem h kids).
Proof.
  intros H G C. unfold read_document. rewrite after_prefix_app, C.
  set (l := [Elem h kids; Text (String newline "")]).
  assert (Gl : good l) by (constructor; [exact H|exact G|]; constructor; [discriminate|reflexivity|reflexivity|constructor|reflexivity]).
  pose proof (read_texts (S (String.length (xtexts l))) l "" Gl (or_introl eq_refl) (le_n _)) as R. rewrite str_app_nil in R.
  assert (E : xtexts l = (xtext (Elem h kids) ++ String newline "")%string) by (unfold xtexts, l; cbn [map nv_cat fold_right]; f_equal).
  rewrite E in R. rewrite R. reflexivity.
Qed.

(** ** Runs of blanks *)
Fixpoint sq (x : xml) : xml :=
  match x with Text s => Text (squeeze false s) | Elem h kids => Elem h ((fix all (l : list xml) := match l with [] => [] | k :: l => sq k :: all l end) kids) end.
Lemma sq_elem h kids : sq (Elem h kids) = Elem h (map sq kids).
Proof. cbn [sq]. f_equal. Qed.
Lemma squeeze_mid c b : is_ws c = false -> forall a i, squeeze i (a ++ String c b)%string = (squeeze i a ++ String c (squeeze false b))%string.
Proof.
  intros W a. induction a as [|d a IH]; intros i; cbn [append squeeze]; [rewrite W; reflexivity|].
  destruct (is_ws d); [destruct i|]; cbn [append]; rewrite IH; reflexivity.
Qed.
(** Heads with single blanks. *)
Inductive tight : list xml -> Prop :=
| tight_nil : tight []
| tight_elem h k l : squeeze false h = h -> tight k -> tight l -> tight (Elem h k :: l)
| tight_text s l : text_first l = false -> tight l -> tight (Text s :: l).
Lemma squeeze_tag h : squeeze false h = h -> squeeze false (tag_of h) = tag_of h.
Proof.
  unfold tag_of. induction h as [|c h IH]; [reflexivity|]. cbn [before_char squeeze]. destruct (Ascii.eqb c " ") eqn:E; [reflexivity|].
  destruct (is_ws c) eqn:W.
  - intros X. injection X as X _. subst c. discriminate E.
  - intros X. injection X as X. cbn [squeeze]. rewrite W, IH by exact X. reflexivity.
Qed.
Definition lt_first (s : string) : Prop := s = "" \/ exists r, s = String "<" r.
Lemma lt_squeeze s : lt_first s -> lt_first (squeeze false s).
Proof. intros [->|(r & ->)]; [left; reflexivity|right; eexists; reflexivity]. Qed.
Lemma tight_head l rest : tight l -> lt_first rest -> text_first l = false -> lt_first (xtexts l ++ rest)%string.
Proof.
  intros G E T. destruct G as [|h k l|]; [exact E|right|discriminate T].
  unfold xtexts. cbn [map nv_cat fold_right]. rewrite xtext_elem. eexists. cbn [append]. reflexivity.
Qed.
Lemma squeeze_lt a s : lt_first s -> squeeze false (a ++ s)%string = (squeeze false a ++ squeeze false s)%string.
Proof.
  intros [->|(r & ->)]; [cbn [squeeze]; rewrite !str_app_nil; reflexivity|]. rewrite squeeze_mid by reflexivity. reflexivity.
Qed.
Lemma squeeze_texts : forall n l rest, (String.length (xtexts l) < n)%nat -> tight l -> lt_first rest -> squeeze false (xtexts l ++ rest) = (xtexts (map sq l) ++ squeeze false rest)%string.
Proof.
  induction n as [|n IH]; intros l rest L G E; [lia|]. destruct G as [|h k l H G1 G2|s l T G].
  - reflexivity.
  - unfold xtexts in L |- *. cbn [map nv_cat fold_right] in L |- *. fold (nv_cat (map xtext l)) in L |- *. fold (xtexts l) in L |- *.
    change (fold_right append "" (map xtext (map sq l))) with (xtexts (map sq l)).
    rewrite xtext_elem in *. rewrite sq_elem, xtext_elem. rewrite !len_app in L. cbn [String.length] in L. rewrite !app_assoc_str.
    cbn [append squeeze]. change (is_ws "<") with false. cbv iota. rewrite squeeze_mid by reflexivity. rewrite H. do 3 f_equal.
    rewrite IH; [|lia|exact G1|right; eexists; reflexivity]. f_equal. cbn [squeeze]. change (is_ws "<") with false. change (is_ws "/") with false. cbv iota. do 2 f_equal.
    rewrite squeeze_mid by reflexivity. rewrite (squeeze_tag h H). do 2 f_equal. apply IH; [lia|exact G2|exact E].
  - unfold xtexts in L |- *. cbn [map nv_cat fold_right xtext sq] in L |- *. fold (nv_cat (map xtext l)) in L |- *. fold (xtexts l) in L |- *.
    change (fold_right append "" (map xtext (map sq l))) with (xtexts (map sq l)). rewrite len_app in L. rewrite !app_assoc_str.
    rewrite squeeze_lt by (apply tight_head; assumption). f_equal.
    destruct s as [|c s]; [|apply IH; [cbn [String.length] in L; lia|exact G|exact E]].
    destruct G as [|h k l H G1 G2|]; [reflexivity| |discriminate T].
    unfold xtexts in L |- *. cbn [map nv_cat fold_right] in L |- *. fold (nv_cat (map xtext l)) in L |- *. fold (xtexts l) in L |- *.
    change (fold_right append "" (map xtext (map sq l))) with (xtexts (map sq l)).
    rewrite xtext_elem in *. rewrite sq_elem, xtext_elem. rewrite !len_app in L. cbn [String.length] in L. rewrite !app_assoc_str.
    cbn [append squeeze]. change (is_ws "<") with false. cbv iota. rewrite squeeze_mid by reflexivity. rewrite H. do 3 f_equal.
    rewrite IH; [|lia|exact G1|right; eexists; reflexivity]. f_equal. cbn [squeeze]. change (is_ws "<") with false. change (is_ws "/") with false. cbv iota. do 2 f_equal.
    rewrite squeeze_mid by reflexivity. rewrite (squeeze_tag h H). do 2 f_equal. apply IH; [lia|exact G2|exact E].
Qed.
Lemma squeeze_tree x : tight [x] -> squeeze false (xtext x) = xtext (sq x).
Proof.
  intros G. pose proof (squeeze_texts _ [x] "" (le_n _) G (or_introl eq_refl)) as H. unfold xtexts in H. cbn [map nv_cat fold_right] in H. cbn [squeeze] in H. rewrite !str_app_nil in H. exact H.
Qed.
Lemma rstrip_tree h kids : rstrip (xtext (Elem h kids)) = xtext (Elem h kids).
Proof.
  rewrite xtext_elem. assert (R : forall a, rstrip (a ++ ">")%string = (a ++ ">")%string).
  { induction a as [|c a IH]; [reflexivity|]. cbn [append rstrip]. rewrite IH. assert (is_empty (a ++ ">")%string = false) by (destruct a; reflexivity). rewrite H. cbn [andb]. rewrite ?andb_false_r. reflexivity. }
  replace ("<" ++ h ++ ">" ++ xtexts kids ++ "</" ++ tag_of h ++ ">")%string with (("<" ++ h ++ ">" ++ xtexts kids ++ "</" ++ tag_of h) ++ ">")%string; [apply R|].
  rewrite !app_assoc_str. reflexivity.
Qed.
