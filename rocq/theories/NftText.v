(** Reading back what nftables.py writes: words, sets, rules. *)
From Coq Require Import Lia ZifyBool ZifyNat.
From Verif Require Import SpecNft BaseFacts PyStrFacts TextProofs CiscoProofs CiscoProofs2 CiscoTerm GenProofs GenProofs2.
Local Open Scope string_scope.
Local Open Scope list_scope.
Local Open Scope Z_scope.

(** ** Words *)

Definition word_char (c : ascii) : bool :=
  negb (is_ws c || Ascii.eqb c dquote || Ascii.eqb c "#" || Ascii.eqb c "{" || Ascii.eqb c "}" || Ascii.eqb c ";" || Ascii.eqb c ",").
Definition plain_word (s : string) : Prop := s <> "" /\ forall_char word_char s = true.
Definition cur_of (s : string) : option string := if is_empty s then None else Some s.
Lemma grow_cur s c : grow (cur_of s) c = cur_of (append s (String c "")).
Proof. destruct s; reflexivity. Qed.
Lemma omap_app {A} (a b : list A) o : option_map (app a) (option_map (app b) o) = option_map (app (a ++ b)) o.
Proof. destruct o; simpl; [rewrite app_assoc|]; reflexivity. Qed.
Lemma omap_nil {A} (o : option (list A)) : option_map (app []) o = o.
Proof. destruct o; reflexivity. Qed.
Lemma word_char_all c : word_char c = true -> is_ws c = false /\ Ascii.eqb c dquote = false /\ Ascii.eqb c "#" = false /\
  Ascii.eqb c "{" = false /\ Ascii.eqb c "}" = false /\ Ascii.eqb c ";" = false /\ Ascii.eqb c "," = false.
Proof.
  unfold word_char. intros H. apply negb_true_iff in H. rewrite !orb_false_iff in H. tauto.
Qed.
Lemma words_plain s : forall_char word_char s = true -> forall set cur r,
  nft_words set false (cur_of cur) (s ++ r)%string = nft_words set false (cur_of (append cur s)) r.
Proof.
  induction s as [|c s IH]; intros P set cur r; [cbn [append]; rewrite str_app_nil; reflexivity|].
  cbn [forall_char] in P. apply andb_true_iff in P. destruct P as (P1 & P2).
  destruct (word_char_all c P1) as (A & B & C & D & E & F & G).
  cbn [append nft_words]. rewrite A, B, C, D, E, F, G, andb_false_r, grow_cur, (IH P2), str_app_assoc. reflexivity.
Qed.
Lemma words_one s : plain_word s -> forall set r, nft_words set false None (s ++ r)%string = nft_words set false (Some s) r.
Proof. intros (N & P) set r. pose proof (words_plain s P set "" r) as H. cbn [append] in H. destruct s; [congruence|exact H]. Qed.
(** The text reads as these words, and what follows after a blank is read as usual. *)
Definition lexes (s : string) (ws : list string) : Prop :=
  (forall r, nft_words false false None (s ++ String " " r)%string = option_map (app ws) (nft_words false false None r)) /\
  nft_words false false None s = Some ws /\ has_char newline s = false.
Lemma blank_next set cur r : nft_words set false cur (String " " r) = option_map (app (word_of cur)) (nft_words set false None r).
Proof. reflexivity. Qed.
Lemma plain_newline s : forall_char word_char s = true -> has_char newline s = false.
Proof. intros P. apply (forall_char_has _ s newline P). reflexivity. Qed.
Lemma lexes_word s : plain_word s -> lexes s [s].
Proof.
  intros P. split; [|split].
  - intros r. rewrite (words_one s P), blank_next. reflexivity.
  - rewrite <- (str_app_nil s) at 1. rewrite (words_one s P). reflexivity.
  - apply plain_newline, P.
Qed.
Lemma lexes_nil : lexes "" [].
Proof. split; [|split; reflexivity]. intros r. cbn [append]. rewrite blank_next. reflexivity. Qed.
Lemma lexes_cat a b A B : lexes a A -> lexes b B -> lexes (a ++ String " " b)%string (A ++ B).
Proof.
  intros (A1 & A2 & A3) (B1 & B2 & B3). split; [|split].
  - intros r. rewrite str_app_assoc. cbn [append]. rewrite A1, B1. apply omap_app.
  - rewrite A1, B2. reflexivity.
  - rewrite has_char_app. cbn [has_char]. rewrite A3, B3. reflexivity.
Qed.
Lemma lexes_lead b B : lexes b B -> lexes (String " " b) B.
Proof. exact (lexes_cat "" b [] B lexes_nil). Qed.
Lemma comma_next cur r : nft_words true false cur (String "," r) = option_map (app (word_of cur ++ [","])) (nft_words true false None r).
Proof. reflexivity. Qed.
Lemma open_next set cur r : nft_words set false cur (String "{" r) = option_map (app (word_of cur ++ ["{"])) (nft_words true false None r).
Proof. reflexivity. Qed.
Lemma close_next set cur r : nft_words set false cur (String "}" r) = option_map (app (word_of cur ++ ["}"])) (nft_words false false None r).
Proof. reflexivity. Qed.
Lemma quote_next set cur r : nft_words set false cur (String dquote r) = option_map (app (word_of cur)) (nft_words set true (Some (String dquote "")) r).
Proof. reflexivity. Qed.
Lemma unquote_next set cur r : nft_words set true cur (String dquote r) = option_map (app (word_of cur)) (nft_words set false None r).
Proof. reflexivity. Qed.
(** sets *)
Fixpoint with_commas (l : list string) : list string :=
  match l with [] => [] | [x] => [x] | x :: r => x :: "," :: with_commas r end.
Lemma set_words l : l <> [] -> Forall plain_word l -> forall r,
  nft_words true false None (join ", " l ++ " }" ++ r)%string = option_map (app (with_commas l ++ ["}"])) (nft_words false false None r).
Proof.
  induction l as [|x l IH]; [congruence|]. intros _ F r. inversion F as [|? ? Px Fl]; subst.
  destruct l as [|y l].
  - cbn [join with_commas]. rewrite (words_one x Px). cbn [append]. rewrite blank_next, close_next, omap_app. reflexivity.
  - rewrite join_cons2, !str_app_assoc. rewrite (words_one x Px). cbn [append]. rewrite comma_next, (blank_next true None).
    pose proof (IH ltac:(discriminate) Fl r) as K. cbn [append] in K. rewrite K. cbn [word_of]. rewrite !omap_app. reflexivity.
Qed.
Lemma lexes_set l : l <> [] -> Forall plain_word l ->
  lexes (append "{ " (append (join ", " l) " }")) ("{" :: with_commas l ++ ["}"]).
Proof.
  intros N F. assert (K : forall r, nft_words false false None ((append "{ " (append (join ", " l) " }")) ++ r)%string
    = option_map (app ("{" :: with_commas l ++ ["}"])) (nft_words false false None r)).
  { intros r. rewrite !str_app_assoc. cbn [append]. rewrite open_next, (blank_next true None).
    pose proof (set_words l N F r) as K. cbn [append] in K. rewrite K. cbn [word_of]. rewrite !omap_app. reflexivity. }
  split; [|split].
  - intros r. rewrite K, blank_next. cbn [word_of]. rewrite omap_nil. reflexivity.
  - rewrite <- (str_app_nil (append _ _)), K. cbn [nft_words word_of option_map]. rewrite app_nil_r. reflexivity.
  - rewrite !has_char_app. change (has_char newline "{ ") with false. change (has_char newline " }") with false. rewrite orb_false_r.
    cbn [orb]. apply (forall_char_has (fun c => negb (Ascii.eqb c newline)) _ newline); [|reflexivity].
    apply forall_char_join; [reflexivity|]. intros x I. apply (forall_char_impl word_char); [|exact (proj2 (proj1 (Forall_forall _ _) F x I))].
    intros c W. destruct (word_char_all c W) as (Ws & _). apply negb_true_iff. destruct (Ascii.eqb c newline) eqn:E; [|reflexivity].
    apply Ascii.eqb_eq in E. subst c. discriminate Ws.
Qed.
(** quoted texts *)
Definition quotable (s : string) : bool := forall_char (fun c => negb (Ascii.eqb c dquote || Ascii.eqb c newline)) s.
Lemma quoted_words s : quotable s = true -> forall set cur r,
  nft_words set true (Some cur) (s ++ r)%string = nft_words set true (Some (append cur s)) r.
Proof.
  induction s as [|c s IH]; intros Q set cur r; [cbn [append]; rewrite str_app_nil; reflexivity|].
  unfold quotable in Q. cbn [forall_char] in Q. apply andb_true_iff in Q. destruct Q as (Q1 & Q2).
  apply negb_true_iff, orb_false_iff in Q1. destruct Q1 as (Q1 & _). cbn [append nft_words]. rewrite Q1. unfold grow. rewrite (IH Q2), str_app_assoc. reflexivity.
Qed.
Lemma lexes_quoted s : quotable s = true -> lexes (String dquote (s ++ String dquote ""))%string [String dquote s].
Proof.
  intros Q.
  assert (K : forall r, nft_words false false None (String dquote (s ++ String dquote r))%string = option_map (app [String dquote s]) (nft_words false false None r)).
  { intros r. rewrite quote_next, (quoted_words s Q), unquote_next. cbn [word_of append]. rewrite omap_nil. reflexivity. }
  split; [|split].
  - intros r. cbn [append]. rewrite str_app_assoc. cbn [append]. rewrite K, blank_next. cbn [word_of]. rewrite omap_nil. reflexivity.
  - rewrite K. reflexivity.
  - cbn [has_char]. change (Ascii.eqb newline dquote) with false. rewrite has_char_app. cbn [has_char orb].
    rewrite (forall_char_has _ s newline Q) by reflexivity. reflexivity.
Qed.

(** ** Items *)

Definition itemed (ws : list string) (l : list item) : Prop :=
  forall r, nft_items None (ws ++ r) = option_map (app l) (nft_items None r).
Lemma itemed_app a b A B : itemed a A -> itemed b B -> itemed (a ++ b) (A ++ B).
Proof. intros HA HB r. rewrite <- app_assoc, HA, HB. apply omap_app. Qed.
Definition punctuation : list string := ["{"; "}"; ","; ";"].
Lemma itemed_word w : str_in w punctuation = false -> itemed [w] [Word w].
Proof.
  intros P r. unfold punctuation in P.
  assert (P1 : String.eqb w "{" = false) by (apply String.eqb_neq; intros ->; discriminate P).
  assert (P2 : str_in w ["}"; ","; ";"] = false) by (apply str_in_false; intros I; apply (proj1 (str_in_false _ _) P); right; exact I).
  cbn [app nft_items]. rewrite P1, P2. destruct (nft_items None r); reflexivity.
Qed.
Lemma itemed_set_from l : l <> [] -> Forall (fun x => str_in x punctuation = false) l -> forall k r,
  nft_items (Some (k, false)) (with_commas l ++ "}" :: r) = option_map (cons (Elements (k ++ l))) (nft_items None r).
Proof.
  induction l as [|x l IH]; [congruence|]. intros _ F k r. inversion F as [|? ? Px Fl]; subst. destruct l as [|y l].
  - cbn [with_commas app nft_items]. fold punctuation. rewrite Px. reflexivity.
  - cbn [with_commas app nft_items]. fold punctuation. rewrite Px. change (String.eqb "," ",") with true. cbv iota.
    pose proof (IH ltac:(discriminate) Fl (k ++ [x]) r) as K. cbn [with_commas app] in K. rewrite K. rewrite <- app_assoc. reflexivity.
Qed.
Lemma itemed_set l : l <> [] -> Forall (fun x => str_in x punctuation = false) l -> itemed ("{" :: with_commas l ++ ["}"]) [Elements l].
Proof.
  intros N F r. cbn [app nft_items]. change (String.eqb "{" "{") with true. cbv iota. rewrite <- app_assoc. cbn [app].
  rewrite (itemed_set_from l N F [] r). reflexivity.
Qed.
Lemma plain_not_punctuation s : plain_word s -> str_in s punctuation = false.
Proof.
  intros (_ & P). apply str_in_false. intros [E|[E|[E|[E|[]]]]]; subst s; discriminate P.
Qed.
(** The text reads as these items. *)
Definition spells (s : string) (l : list item) : Prop := exists ws, lexes s ws /\ itemed ws l.
Lemma spells_word s : plain_word s -> spells s [Word s].
Proof. intros P. exists [s]. split; [apply lexes_word, P|apply itemed_word, plain_not_punctuation, P]. Qed.
Lemma spells_cat a b A B : spells a A -> spells b B -> spells (a ++ String " " b)%string (A ++ B).
Proof. intros (wa & LA & IA) (wb & LB & IB). exists (wa ++ wb). split; [apply lexes_cat; assumption|apply itemed_app; assumption]. Qed.
Lemma spells_nil : spells "" [].
Proof. exists []. split; [exact lexes_nil|]. intros r. rewrite omap_nil. reflexivity. Qed.
Lemma spells_lead b B : spells b B -> spells (String " " b) B.
Proof. exact (spells_cat "" b [] B spells_nil). Qed.
Lemma spells_quoted s : quotable s = true -> spells (String dquote (s ++ String dquote ""))%string [Word (String dquote s)].
Proof.
  intros Q. exists [String dquote s]. split; [apply lexes_quoted, Q|]. apply itemed_word. apply str_in_false.
  intros [E|[E|[E|[E|[]]]]]; discriminate E.
Qed.
(** a value *)
Lemma spells_set l : l <> [] -> Forall plain_word l -> exists i, spells (nft_set l) [i] /\ values i = l.
Proof.
  intros N F. destruct l as [|x [|y l]]; [congruence| |].
  - exists (Word x). split; [apply spells_word; inversion F; assumption|reflexivity].
  - exists (Elements (x :: y :: l)). split; [|reflexivity]. exists ("{" :: with_commas (x :: y :: l) ++ ["}"]). split.
    + apply lexes_set; assumption.
    + apply itemed_set; [assumption|]. apply Forall_forall. intros z I. apply plain_not_punctuation, (proj1 (Forall_forall _ _) F z I).
Qed.
(** two words and a value *)
Lemma spells_match a b l : plain_word a -> plain_word b -> l <> [] -> Forall plain_word l ->
  exists i, spells (append a (append " " (append b (append " " (nft_set l))))) [Word a; Word b; i] /\ values i = l.
Proof.
  intros A B N F. destruct (spells_set l N F) as (i & S & V). exists i. split; [|exact V].
  change [Word a; Word b; i] with ([Word a] ++ [Word b] ++ [i]). cbn [append].
  apply spells_cat; [apply spells_word, A|]. apply spells_cat; [apply spells_word, B|exact S].
Qed.

(** ** Rules *)

Definition adds (l : list item) (cs : list (packet -> Prop)) : Prop := forall r, nft_rule (l ++ r) = fold_right nft_also (nft_rule r) cs.
(** The text is a condition. *)
Definition piece (s : string) (c : packet -> Prop) : Prop :=
  exists l cs, spells s l /\ adds l cs /\ forall p, Forall (fun d : packet -> Prop => d p) cs <-> c p.
Lemma piece_cat a c b d : piece a c -> piece b d -> piece (a ++ String " " b)%string (fun p => c p /\ d p).
Proof.
  intros (la & ca & SA & AA & MA) (lb & cb & SB & AB & MB). exists (la ++ lb), (ca ++ cb). split; [apply spells_cat; assumption|]. split.
  - intros r. rewrite <- app_assoc, AA, AB, fold_right_app. reflexivity.
  - intros p. rewrite Forall_app, MA, MB. tauto.
Qed.
Lemma piece_nil : piece "" (fun _ => True).
Proof. exists [], []. split; [exact spells_nil|]. split; [intros r; reflexivity|]. intros p. split; [auto|constructor]. Qed.
Lemma piece_lead a c : piece a c -> piece (String " " a) c.
Proof. intros (l & cs & S & A & M). exists l, cs. split; [apply spells_lead, S|auto]. Qed.
Lemma piece_add a c b d : piece a c -> piece b d -> piece (a ++ nft_add b)%string (fun p => c p /\ d p).
Proof.
  intros PA PB. unfold nft_add. destruct b as [|x b].
  - cbn [nonempty is_empty negb]. rewrite str_app_nil. destruct PA as (l & cs & S & A & M). destruct PB as (l' & cs' & S' & A' & M').
    (* nothing is read of the empty text *)
    assert (E : cs' = []).
    { destruct S' as (ws & (_ & L & _) & I). cbn in L. assert (ws = []) by congruence. subst ws. pose proof (I []) as J. cbn in J.
      rewrite app_nil_r in J. assert (l' = []) by congruence. subst l'. pose proof (A' []) as K. cbn in K.
      destruct cs' as [|k cs']; [reflexivity|]. cbn in K. destruct (fold_right nft_also (Some (mkNrule [] None)) cs'); cbn in K; [|discriminate K].
      injection K as K1 K2. discriminate K1. }
    subst cs'. exists l, cs. split; [exact S|]. split; [exact A|]. intros p. rewrite M, <- M'. split; [intros H; split; [exact H|constructor]|tauto].
  - cbn [nonempty is_empty negb append]. apply piece_cat; assumption.
Qed.
Lemma piece_iff a (c d : packet -> Prop) : (forall p, c p <-> d p) -> piece a c -> piece a d.
Proof. intros E (l & cs & S & A & M). exists l, cs. split; [exact S|]. split; [exact A|]. intros p. rewrite M. apply E. Qed.
Lemma fold_also cs o r : fold_right nft_also o cs = Some r -> exists r0, o = Some r0 /\ nr_conditions r = cs ++ nr_conditions r0 /\ nr_target r = nr_target r0.
Proof.
  revert r. induction cs as [|c cs IH]; cbn [fold_right]; intros r H; [exists r; auto|].
  destruct (fold_right nft_also o cs) as [r1|] eqn:E; [|discriminate H]. cbn in H. injection H as <-. destruct (IH r1 eq_refl) as (r0 & E0 & C & T).
  exists r0. split; [exact E0|]. cbn. rewrite C, T. auto.
Qed.
Lemma fold_also_some cs r0 : exists r, fold_right nft_also (Some r0) cs = Some r.
Proof. induction cs as [|c cs (r & E)]; [exists r0; reflexivity|]. cbn [fold_right]. rewrite E. eexists. reflexivity. Qed.
(** matches *)
Lemma match_piece a b l c : plain_word a -> plain_word b -> l <> [] -> Forall plain_word l ->
  ~ In a (nft_verdicts ++ ["counter"; "jump"; "iifname"; "oifname"; "log"]) ->
  (forall i, values i = l -> exists d, nft_match a b i = Some d /\ forall p, d p <-> c p) ->
  piece (append a (append " " (append b (append " " (nft_set l))))) c.
Proof.
  intros A B N F Na M. destruct (spells_match a b l A B N F) as (i & S & V). destruct (M i V) as (d & Ed & Md).
  exists [Word a; Word b; i], [d]. split; [exact S|]. split.
  - intros r. cbn [app nft_rule]. rewrite (proj2 (str_in_false a nft_verdicts)) by (intros I; apply Na, in_or_app; auto).
    assert (X : forall w, In w ["counter"; "jump"; "iifname"; "oifname"; "log"] -> String.eqb a w = false).
    { intros w I. apply String.eqb_neq. intros ->. apply Na, in_or_app. auto. }
    rewrite !X by (cbn; auto 10). cbn [andb]. rewrite Ed. reflexivity.
  - intros p. rewrite <- Md. split; [intros H; inversion H; assumption|auto].
Qed.

(** ** Lines *)

Definition rule_line (s : string) (c : packet -> Prop) (t : target) : Prop :=
  exists r, nft_line s = Some (NRule r) /\ nr_target r = Some t /\ (forall p, nmeets r p <-> c p) /\ has_char newline s = false.
Lemma items_open a : forall l o, nft_items o (a ++ ["{"]) = Some l -> False.
Proof.
  induction a as [|w a IH]; intros l o H.
  - cbn in H. destruct o as [[k []]|]; cbn in H; discriminate H.
  - cbn [app nft_items] in H. destruct o as [[k []]|].
    + destruct (String.eqb w ","); [exact (IH _ _ H)|]. destruct (String.eqb w "}"); [|discriminate H].
      destruct (nft_items None (a ++ ["{"])) eqn:E; [exact (IH _ _ E)|discriminate H].
    + destruct (str_in w _); [discriminate H|exact (IH _ _ H)].
    + destruct (String.eqb w "{"); [exact (IH _ _ H)|]. destruct (str_in w _); [discriminate H|].
      destruct (nft_items None (a ++ ["{"])) eqn:E; [exact (IH _ _ E)|discriminate H].
Qed.
Lemma items_semicolon ws : In ";" ws -> forall o l, nft_items o ws = Some l -> False.
Proof.
  induction ws as [|w ws IH]; [intros []|]. intros J o l H. cbn [nft_items] in H.
  assert (K : w <> ";" -> In ";" ws) by (intros N; destruct J as [J|J]; [congruence|exact J]).
  destruct o as [[k []]|].
  - destruct (String.eqb w ",") eqn:E1; [apply String.eqb_eq in E1; subst w; exact (IH (K ltac:(discriminate)) _ _ H)|].
    destruct (String.eqb w "}") eqn:E2; [|discriminate H]. apply String.eqb_eq in E2. subst w.
    destruct (nft_items None ws) eqn:E; [exact (IH (K ltac:(discriminate)) _ _ E)|discriminate H].
  - destruct (str_in w _) eqn:E1; [discriminate H|]. apply (IH (K ltac:(intros ->; discriminate E1)) _ _ H).
  - destruct (String.eqb w "{") eqn:E1; [apply String.eqb_eq in E1; subst w; exact (IH (K ltac:(discriminate)) _ _ H)|].
    destruct (str_in w _) eqn:E2; [discriminate H|].
    destruct (nft_items None ws) eqn:E; [exact (IH (K ltac:(intros ->; discriminate E2)) _ _ E)|discriminate H].
Qed.
Lemma items_line s ws l r : nft_words false false None s = Some ws -> ws <> [] -> nft_items None ws = Some l -> nft_rule l = Some r ->
  nft_line s = Some (NRule r).
Proof.
  intros W Nw I R. unfold nft_line. rewrite W.
  assert (Rule : option_map NRule match nft_items None ws with Some l0 => nft_rule l0 | None => None end = Some (NRule r)) by (rewrite I, R; reflexivity).
  destruct ws as [|w1 [|w2 [|w3 [|w4 [|w5 [|w6 [|w7 [|w8 [|w9 [|w10 [|w11 ws]]]]]]]]]]]; try exact Rule; [congruence| | | |].
  - destruct (String.eqb w1 "}") eqn:E; [|exact Rule]. apply String.eqb_eq in E. subst w1. discriminate I.
  - destruct (String.eqb w3 "{") eqn:E; [|rewrite andb_false_r; exact Rule]. apply String.eqb_eq in E. subst w3.
    exfalso. exact (items_open [w1; w2] _ _ I).
  - destruct (String.eqb w4 "{") eqn:E; [|rewrite andb_false_r; exact Rule]. apply String.eqb_eq in E. subst w4.
    exfalso. exact (items_open [w1; w2; w3] _ _ I).
  - destruct (list_str_eqb [w1; w2; w3; w5; w7; w8; w10] ["type"; "filter"; "hook"; "priority"; ";"; "policy"; ";"]) eqn:E; [|exact Rule].
    apply list_str_eqb_iff in E. exfalso. apply (fun J => items_semicolon _ J _ _ I). injection E as -> -> -> -> -> -> ->. cbn. auto 12.
Qed.
(** the end of a rule *)
Definition ending (s : string) (t : target) : Prop := exists l, spells s l /\ l <> [] /\ nft_rule l = Some (mkNrule [] (Some t)).
Lemma line_of s c e t : piece s c -> ending e t -> rule_line (s ++ String " " e)%string c t.
Proof.
  intros (l & cs & S & A & M) (le & (we & Le & Ie) & Ne & Re). destruct S as (ws & L & I).
  destruct (lexes_cat _ _ _ _ L Le) as (_ & W & Nn). pose proof (itemed_app _ _ _ _ I Ie []) as J. rewrite !app_nil_r in J. cbn in J. rewrite app_nil_r in J.
  pose proof (A le) as R. rewrite Re in R. destruct (fold_also_some cs (mkNrule [] (Some t))) as (r & Er). rewrite Er in R.
  destruct (fold_also _ _ _ Er) as (r0 & E0 & C0 & T0). injection E0 as <-. cbn in C0, T0. rewrite app_nil_r in C0.
  exists r. split.
  - apply (items_line _ _ (l ++ le) r W); [|exact J|exact R]. intros E. apply app_eq_nil in E. destruct E as (_ & ->). pose proof (Ie []) as K. cbn in K.
    rewrite app_nil_r in K. congruence.
  - split; [exact T0|]. split; [|exact Nn]. intros p. unfold nmeets. rewrite C0. apply M.
Qed.
Lemma rule_line_lead s c t n : rule_line s c t -> (forall r, nft_words false false None (n ++ r)%string = nft_words false false None r) ->
  has_char newline n = false -> rule_line (n ++ s)%string c t.
Proof.
  intros (r & L & T & M & N) K Nn. exists r. split; [unfold nft_line; rewrite K; exact L|]. split; [exact T|]. split; [exact M|]. rewrite has_char_app, Nn. exact N.
Qed.
Lemma tab8_words r : nft_words false false None (tab8 r) = nft_words false false None r.
Proof. unfold tab8. cbn [append]. rewrite !blank_next. cbn [word_of]. rewrite !omap_nil. reflexivity. Qed.
Lemma tab4_words r : nft_words false false None (tab4 r) = nft_words false false None r.
Proof. unfold tab4. cbn [append]. rewrite !blank_next. cbn [word_of]. rewrite !omap_nil. reflexivity. Qed.
Lemma tab8_line s : nft_line (tab8 s) = nft_line s.
Proof. unfold nft_line. rewrite tab8_words. reflexivity. Qed.
Lemma tab4_line s : nft_line (tab4 s) = nft_line s.
Proof. unfold nft_line. rewrite tab4_words. reflexivity. Qed.
Lemma verdict_ending v : In v nft_verdicts -> ending v (Verdict v).
Proof.
  intros I. assert (P : plain_word v) by (destruct I as [<-|[<-|[<-|[]]]]; (split; [discriminate|reflexivity])).
  exists [Word v]. split; [apply spells_word, P|]. split; [discriminate|]. cbn [nft_rule]. rewrite (proj2 (str_in_iff _ _) I). reflexivity.
Qed.
Lemma truncate_quoted l : exists c, truncate_words (Lines l) 126 = String dquote (c ++ String dquote "")%string /\ quotable c = true /\ slen c <= 126.
Proof.
  destruct (truncate_words_clean l 126) as (c & E & Q). exists c. split; [exact E|]. split.
  - unfold quotable. destruct Q as (Q1 & Q2). clear E. revert Q1 Q2. induction c as [|a c IH]; [reflexivity|]. cbn [has_char forall_char].
    intros Q1 Q2. apply orb_false_iff in Q1, Q2. destruct Q1 as (Q1 & Q1'), Q2 as (Q2 & Q2'). rewrite (IH Q1' Q2'), andb_true_r.
    apply negb_true_iff, orb_false_iff. rewrite (Ascii.eqb_sym a dquote), (Ascii.eqb_sym a newline). auto.
  - pose proof (truncate_words_length (Lines l) 126 ltac:(lia)) as K. rewrite E in K. cbn [slen] in K. unfold slen in *. cbn [String.length] in K.
    assert (L : forall a b, String.length (a ++ b)%string = (String.length a + String.length b)%nat) by (induction a as [|x a IHa]; intros b; cbn; [reflexivity|rewrite IHa; reflexivity]).
    rewrite L in K. cbn [String.length] in K. lia.
Qed.
Lemma comment_ending v l : In v nft_verdicts -> ending (v ++ " comment " ++ truncate_words (Lines l) 126)%string (Verdict v).
Proof.
  intros I. assert (P : plain_word v) by (destruct I as [<-|[<-|[<-|[]]]]; (split; [discriminate|reflexivity])).
  destruct (truncate_quoted l) as (c & E & Q & L). rewrite E. exists ([Word v] ++ [Word "comment"] ++ [Word (String dquote c)]). split.
  - change (v ++ " comment " ++ String dquote (c ++ String dquote ""))%string with (v ++ String " " ("comment" ++ String " " (String dquote (c ++ String dquote ""))))%string.
    apply spells_cat; [apply spells_word, P|]. apply spells_cat; [apply spells_word; split; [discriminate|reflexivity]|apply spells_quoted, Q].
  - split; [discriminate|]. cbn [app nft_rule]. rewrite (proj2 (str_in_iff _ _) I). cbn [nft_tail]. change (String.eqb "comment" "comment") with true.
    assert (Q2 : is_quoted (String dquote c) = true) by (unfold is_quoted, starts_with; cbn; destruct c; reflexivity). rewrite Q2.
    cbn [andb]. assert (S : (slen (String dquote c) <=? 128) = true) by (unfold slen in *; cbn [String.length]; lia). rewrite S. reflexivity.
Qed.
