(** Whole nftables policies: what the text contains, and what its chains decide. *)
From Coq Require Import Lia ZifyBool ZifyNat.
From Verif Require Import SpecNft BaseFacts PyStrFacts TextProofs CiscoProofs CiscoProofs2 CiscoTerm CiscoAcl CiscoEst GenProofs GenProofs2 IPFacts ExcludeProofs NftText NftTerm NftRule NftRuleset NftChains.
From Verif Require WrapProofs.
Local Open Scope string_scope.
Local Open Scope list_scope.
Local Open Scope Z_scope.

(** ** Lines *)

Lemma name_plain n : nft_name n = true -> plain_word n.
Proof.
  intros H. unfold nft_name in H. destruct n as [|c n]; [discriminate|]. rewrite !andb_true_iff in H. destruct H as ((H & _) & _). split; [discriminate|].
  apply (word_char_of name_char); [exact name_word|exact H].
Qed.
Definition lexed (s : string) (ws : list string) : Prop := nft_words false false None s = Some ws /\ has_char newline s = false.
Lemma lexes_lexed s ws : lexes s ws -> lexed s ws.
Proof. intros (_ & A & B). split; assumption. Qed.
Lemma open_lexed a A : lexes a A -> lexed (a ++ " {")%string (A ++ ["{"]).
Proof. intros (H & _ & N). split; [rewrite H; reflexivity|]. rewrite has_char_app, N. reflexivity. Qed.
Lemma chain_line n : nft_name n = true -> nft_line (tab4 ("chain " ++ n ++ " {")) = Some (NChain n) /\ has_char newline (tab4 ("chain " ++ n ++ " {")) = false.
Proof.
  intros H. assert (L : lexes ("chain" ++ String " " n)%string (["chain"] ++ [n])).
  { apply lexes_cat; apply lexes_word; [split; [discriminate|reflexivity]|apply name_plain, H]. }
  destruct (open_lexed _ _ L) as (W & N). rewrite tab4_line. unfold tab4.
  change ("chain " ++ n ++ " {")%string with (("chain" ++ String " " n) ++ " {")%string. split.
  - unfold nft_line. rewrite W. cbn [app]. change (String.eqb "chain" "chain" && String.eqb "{" "{") with true. cbv iota. rewrite H. reflexivity.
  - rewrite has_char_app, N. reflexivity.
Qed.
Lemma table_line f n : In f ["ip"; "ip6"; "inet"; "bridge"] -> nft_name n = true ->
  nft_line ("table " ++ f ++ " " ++ n ++ " {") = Some (NTable f n) /\ has_char newline ("table " ++ f ++ " " ++ n ++ " {")%string = false.
Proof.
  intros I H. assert (Pf : plain_word f) by (repeat destruct I as [<-|I]; try destruct I; (split; [discriminate|reflexivity])).
  assert (L : lexes ("table" ++ String " " (f ++ String " " n))%string (["table"] ++ [f] ++ [n])).
  { apply lexes_cat; [apply lexes_word; split; [discriminate|reflexivity]|]. apply lexes_cat; apply lexes_word; [exact Pf|apply name_plain, H]. }
  destruct (open_lexed _ _ L) as (W & N).
  assert (E : ("table " ++ f ++ " " ++ n ++ " {")%string = (("table" ++ String " " (f ++ String " " n)) ++ " {")%string).
  { change ("table" ++ String " " (f ++ String " " n))%string with ("table " ++ f ++ " " ++ n)%string. rewrite !str_app_assoc. reflexivity. }
  rewrite E. split; [|exact N]. unfold nft_line. rewrite W. cbn [app]. change (String.eqb "table" "table" && String.eqb "{" "{") with true. cbv iota.
  rewrite (proj2 (str_in_iff _ _) I), H. reflexivity.
Qed.
Lemma close_line : nft_line (tab4 "}") = Some NClose /\ nft_line "}" = Some NClose.
Proof. split; reflexivity. Qed.
Lemma digits_some s : forall_char is_digit s = true -> forall k, exists n, digits_value s k = Some n.
Proof.
  induction s as [|c s IH]; intros H k; [exists k; reflexivity|]. cbn [forall_char] in H. apply andb_true_iff in H. destruct H as (H1 & H2).
  cbn [digits_value]. assert (D : exists d, digit_value c = Some d) by (revert H1; destruct c as [[] [] [] [] [] [] [] []]; vm_compute; try discriminate; intros _; eexists; reflexivity). destruct D as (d & ->). apply IH, H2.
Qed.
Lemma isdigit_value s : isdigit s = true -> exists n, numeral_value s = Some n.
Proof. unfold isdigit. intros H. apply andb_true_iff in H. destruct H as (H1 & H2). destruct s; [discriminate H1|]. apply digits_some, H2. Qed.
Lemma isdigit_plain s : isdigit s = true -> plain_word s.
Proof. unfold isdigit. intros H. apply andb_true_iff in H. destruct H as (H1 & H2). split; [intros ->; discriminate H1|]. apply (word_char_of is_digit); [exact digit_word|exact H2]. Qed.
Lemma semicolon_next set cur r : nft_words set false cur (String ";" r) = option_map (app (word_of cur ++ [";"])) (nft_words set false None r).
Proof. reflexivity. Qed.
Lemma base_line hook pr policy n : In hook ["forward"; "input"; "output"] -> isdigit pr = true -> numeral_value pr = Some n -> In policy ["accept"; "drop"] ->
  let s := tab8 ("type filter hook " ++ hook ++ " priority " ++ pr ++ "; policy " ++ policy ++ ";") in
  nft_line s = Some (NBase hook n policy) /\ has_char newline s = false.
Proof.
  intros Ih Ip Ep Ia. cbv zeta. pose proof (isdigit_plain pr Ip) as Pp. rewrite tab8_line.
  assert (L : lexes ("type" ++ String " " ("filter" ++ String " " ("hook" ++ String " " (hook ++ String " " "priority"))))%string (["type"] ++ ["filter"] ++ ["hook"] ++ [hook] ++ ["priority"])).
  { repeat (apply lexes_cat; [apply lexes_word; first [split; [discriminate|reflexivity] | repeat destruct Ih as [<-|Ih]; try destruct Ih; (split; [discriminate|reflexivity])]|]).
    apply lexes_word. split; [discriminate|reflexivity]. }
  assert (E : ("type filter hook " ++ hook ++ " priority " ++ pr ++ "; policy " ++ policy ++ ";")%string
            = (("type" ++ String " " ("filter" ++ String " " ("hook" ++ String " " (hook ++ String " " "priority")))) ++ String " " (pr ++ "; policy " ++ policy ++ ";"))%string).
  { cbn [append]. rewrite !str_app_assoc. reflexivity. }
  split.
  - rewrite E. unfold nft_line. destruct L as (L & _). rewrite L, (words_one pr Pp). cbn [append].
    assert (W : nft_words false false (Some pr) (String ";" (" policy " ++ policy ++ ";"))%string = Some [pr; ";"; "policy"; policy; ";"]).
    { rewrite semicolon_next. repeat destruct Ia as [<-|Ia]; try destruct Ia; reflexivity. }
    cbn [append] in W. rewrite W. cbn [option_map app].
    assert (C : list_str_eqb ["type"; "filter"; "hook"; "priority"; ";"; "policy"; ";"] ["type"; "filter"; "hook"; "priority"; ";"; "policy"; ";"] = true) by reflexivity.
    cbv iota. rewrite C, Ep. assert (Sh : str_in hook ["input"; "output"; "forward"] = true) by (repeat destruct Ih as [<-|Ih]; try destruct Ih; reflexivity).
    rewrite Sh, (proj2 (str_in_iff _ _) Ia). reflexivity.
  - unfold tab8. rewrite !has_char_app. rewrite (plain_newline pr) by apply Pp.
    repeat destruct Ih as [<-|Ih]; try destruct Ih; repeat destruct Ia as [<-|Ia]; try destruct Ia; reflexivity.
Qed.
Lemma comment_line s : has_char newline s = false -> nft_line (tab8 ("#" ++ s)) = Some NSkip /\ has_char newline (tab8 ("#" ++ s)) = false.
Proof. intros H. rewrite tab8_line. split; [reflexivity|]. unfold tab8. rewrite !has_char_app, H. reflexivity. Qed.
Lemma rule_line_blank s c t : rule_line (String " " s) c t -> rule_line s c t.
Proof.
  intros (r & L & T & M & N). exists r. split; [|split; [exact T|split; [exact M|exact N]]]. unfold nft_line in *. rewrite blank_next in L. cbn [word_of] in L. rewrite omap_nil in L. exact L.
Qed.
Lemma rule_line_tab8 s c t : rule_line s c t -> rule_line (tab8 s) c t.
Proof. intros (r & L & T & M & N). exists r. rewrite tab8_line. split; [exact L|]. split; [exact T|]. split; [exact M|]. unfold tab8. rewrite has_char_app, N. reflexivity. Qed.
Lemma jump_line n : nft_name n = true -> rule_line (tab8 ("jump " ++ n)) (fun _ => True) (Jump n).
Proof.
  intros H. apply rule_line_tab8, rule_line_blank. apply (line_of "" _ ("jump " ++ n) (Jump n) piece_nil).
  exists ([Word "jump"] ++ [Word n]). split; [|split; [discriminate|reflexivity]].
  apply (spells_cat "jump" n); apply spells_word; [split; [discriminate|reflexivity]|apply name_plain, H].
Qed.
Definition list_char (c : ascii) : bool := word_char c || Ascii.eqb c ",".
Lemma words_list s : forall_char list_char s = true -> forall cur r, nft_words false false (cur_of cur) (s ++ r)%string = nft_words false false (cur_of (append cur s)) r.
Proof.
  induction s as [|c s IH]; intros P cur r; [cbn [append]; rewrite str_app_nil; reflexivity|].
  cbn [forall_char] in P. apply andb_true_iff in P. destruct P as (P1 & P2).
  assert (A : is_ws c = false /\ Ascii.eqb c dquote = false /\ Ascii.eqb c "#" = false /\ Ascii.eqb c "{" = false /\ Ascii.eqb c "}" = false /\ Ascii.eqb c ";" = false).
  { unfold list_char in P1. apply orb_true_iff in P1. destruct P1 as [P1|P1]; [pose proof (word_char_all c P1); tauto|]. apply Ascii.eqb_eq in P1. subst c. repeat split; reflexivity. }
  destruct A as (A & B & C & D & E & F).
  cbn [append nft_words]. rewrite A, B, C, D, E, F. cbn [andb]. rewrite grow_cur, (IH P2), str_app_assoc. reflexivity.
Qed.
Lemma lexes_list s : s <> "" -> forall_char list_char s = true -> lexes s [s].
Proof.
  intros N P. assert (K : forall r, nft_words false false None (s ++ r)%string = nft_words false false (Some s) r).
  { intros r. pose proof (words_list s P "" r) as H. cbn [append] in H. destruct s; [congruence|exact H]. }
  split; [|split].
  - intros r. rewrite K, blank_next. reflexivity.
  - rewrite <- (str_app_nil s) at 1. rewrite K. reflexivity.
  - apply (forall_char_has _ s newline P). reflexivity.
Qed.
Lemma replies_piece : piece "ct state established,related" (fun p => p_option p "established").
Proof.
  assert (L : lexes "established,related" ["established,related"]) by (apply lexes_list; [discriminate|reflexivity]).
  exists ([Word "ct"] ++ [Word "state"] ++ [Word "established,related"]), [one_of [(fun p => p_option p "established"); (fun _ => False)]]. split; [|split].
  - apply (spells_cat "ct" "state established,related"); [apply spells_word; split; [discriminate|reflexivity]|].
    apply (spells_cat "state" "established,related"); [apply spells_word; split; [discriminate|reflexivity]|].
    exists ["established,related"]. split; [exact L|]. apply itemed_word. reflexivity.
  - intros r. reflexivity.
  - intros p. split.
    + intros H. inversion H as [|? ? H1 _]; subst. destruct H1 as (c & I & C). destruct I as [<-|[<-|[]]]; [exact C|destruct C].
    + intros H. constructor; [|constructor]. eexists. split; [left; reflexivity|exact H].
Qed.
Lemma replies_line comment : rule_line (tab8 ("ct state established,related accept" ++
    (if some comment then nft_add "comment" ++ nft_add (truncate_words (Lines comment) 126) else ""))) (fun p => p_option p "established") (Verdict "accept").
Proof.
  apply rule_line_tab8. destruct (some comment).
  - assert (A : nft_add (truncate_words (Lines comment) 126) = (" " ++ truncate_words (Lines comment) 126)%string).
    { apply add_nonempty. destruct (truncate_quoted comment) as (c & -> & _). discriminate. }
    rewrite A. apply (line_of "ct state established,related" _ ("accept comment " ++ truncate_words (Lines comment) 126) _ replies_piece).
    apply (comment_ending "accept" comment). left. reflexivity.
  - rewrite str_app_nil. apply (line_of "ct state established,related" _ "accept" _ replies_piece). apply verdict_ending. left. reflexivity.
Qed.

(** ** Blocks: a chain and what it contains *)

Definition block : Type := place * list content.
Definition spread (bs : list block) : list (place * content) := flat_map (fun b => map (pair (fst b)) (Made :: snd b)) bs.
Lemma spread_app a b : spread (a ++ b) = spread a ++ spread b.
Proof. apply flat_map_app. Qed.
Lemma place_eqb_iff a b : place_eqb a b = true <-> a = b.
Proof.
  destruct a as ((a1, a2), a3), b as ((b1, b2), b3). unfold place_eqb. cbn [fst snd]. rewrite !andb_true_iff, !String.eqb_eq. split; [intros ((-> & ->) & ->); reflexivity|].
  intros E. injection E as -> -> ->. auto.
Qed.
Lemma contents_app at_ a b : contents_at at_ (a ++ b) = contents_at at_ a ++ contents_at at_ b.
Proof. apply flat_map_app. Qed.
Lemma contents_same at_ l : contents_at at_ (map (pair at_) l) = l.
Proof.
  unfold contents_at. assert (E : place_eqb at_ at_ = true) by (apply place_eqb_iff; reflexivity).
  induction l as [|x l IH]; [reflexivity|]. cbn [map flat_map fst snd]. rewrite E, IH. reflexivity.
Qed.
Lemma contents_diff at_ x l : x <> at_ -> contents_at at_ (map (pair x) l) = [].
Proof.
  intros N. unfold contents_at. assert (E : place_eqb x at_ = false) by (destruct (place_eqb x at_) eqn:E; [apply place_eqb_iff in E; contradiction|reflexivity]).
  induction l as [|y l IH]; [reflexivity|]. cbn [map flat_map fst snd]. rewrite E, IH. reflexivity.
Qed.
Lemma spread_cons b bs : spread (b :: bs) = map (pair (fst b)) (Made :: snd b) ++ spread bs.
Proof. reflexivity. Qed.
Lemma contents_other at_ bs : ~ In at_ (map fst bs) -> contents_at at_ (spread bs) = [].
Proof.
  induction bs as [|b bs IH]; [reflexivity|]. intros N. rewrite spread_cons, contents_app, contents_diff, IH; [reflexivity| |]; intros I; apply N; [right|left]; exact I.
Qed.
Lemma contents_block at_ l bs : NoDup (map fst bs) -> In (at_, l) bs -> contents_at at_ (spread bs) = Made :: l.
Proof.
  induction bs as [|b bs IH]; [intros _ []|]. intros N I. cbn [map] in N. inversion N as [|? ? N1 N2]; subst. rewrite spread_cons, contents_app. destruct I as [->|I].
  - cbn [fst snd] in *. rewrite contents_same, (contents_other at_ bs N1), app_nil_r. reflexivity.
  - rewrite (IH N2 I), contents_diff; [reflexivity|]. intros E. apply N1. rewrite E. apply in_map_iff. exists (at_, l). auto.
Qed.
Definition in_blocks (bs : list block) : Prop := forall b c, In b bs -> In c (snd b) -> c <> Made.
Lemma spread_made bs : in_blocks bs -> flat_map (fun x => match snd x with Made => [fst x] | _ => [] end) (spread bs) = map fst bs.
Proof.
  induction bs as [|b bs IH]; [reflexivity|]. intros N. change (spread (b :: bs)) with (map (pair (fst b)) (Made :: snd b) ++ spread bs).
  rewrite flat_map_app, IH by (intros x c I; apply N; right; exact I). cbn [map flat_map fst snd].
  assert (E : flat_map (fun x : place * content => match snd x with Made => [fst x] | _ => [] end) (map (pair (fst b)) (snd b)) = []).
  { assert (K : forall c, In c (snd b) -> c <> Made) by (intros c; apply (N b c (or_introl eq_refl))). clear - K.
    induction (snd b) as [|c l IHl]; [reflexivity|]. cbn [map flat_map snd fst]. rewrite IHl by (intros x I; apply K; right; exact I).
    specialize (K c (or_introl eq_refl)). destruct c; [congruence|reflexivity|reflexivity]. }
  rewrite E. reflexivity.
Qed.
Lemma spread_in x c bs : In (x, c) (spread bs) <-> exists l, In (x, l) bs /\ In c (Made :: l).
Proof.
  unfold spread. rewrite in_flat_map. split.
  - intros ((y, l) & I & J). cbn [fst snd] in J. apply in_map_iff in J. destruct J as (c' & E & J). injection E as -> ->. exists l. auto.
  - intros (l & I & J). exists (x, l). split; [exact I|]. apply in_map_iff. exists c. auto.
Qed.

(** ** Reading inside a table *)

Definition reads (f n : string) (lines : list string) (bs : list block) : Prop :=
  (forall s, In s lines -> has_char newline s = false) /\
  exists ls, all_some (map nft_line lines) = Some ls /\
    forall rest, nft_contents (Some (f, n)) None (ls ++ rest) = option_map (app (spread bs)) (nft_contents (Some (f, n)) None rest).
Lemma all_some_cat {A} (a b : list (option A)) x y : all_some a = Some x -> all_some b = Some y -> all_some (a ++ b) = Some (x ++ y).
Proof.
  revert x. induction a as [|o a IH]; intros x HA HB; [injection HA as <-; exact HB|]. cbn [app all_some] in *. destruct o as [o|]; [|discriminate HA].
  destruct (all_some a) as [x'|]; [|discriminate HA]. injection HA as <-. rewrite (IH _ eq_refl HB). reflexivity.
Qed.
Lemma reads_nil f n : reads f n [] [].
Proof. split; [intros s []|]. exists []. split; [reflexivity|]. intros rest. rewrite omap_nil. reflexivity. Qed.
Lemma reads_app f n a b A B : reads f n a A -> reads f n b B -> reads f n (a ++ b) (A ++ B).
Proof.
  intros (NA & la & EA & RA) (NB & lb & EB & RB). split; [intros s I; apply in_app_or in I; destruct I; auto|].
  exists (la ++ lb). split; [rewrite map_app; apply all_some_cat; assumption|]. intros rest. rewrite <- app_assoc, RA, RB, spread_app. apply omap_app.
Qed.
Lemma reads_flat {A} f n (g : A -> list string) (h : A -> list block) l : (forall x, In x l -> reads f n (g x) (h x)) -> reads f n (flat_map g l) (flat_map h l).
Proof.
  induction l as [|x l IH]; intros H; [apply reads_nil|]. cbn [flat_map]. apply reads_app; [apply H; left; reflexivity|]. apply IH. intros y I. apply H. right. exact I.
Qed.
(** a chain *)
Definition inside (x : nft_stmt) : list content :=
  match x with NRule r => [Rule r] | NBase h p a => [Base h p a] | _ => [] end.
Definition is_inside (x : nft_stmt) : Prop := match x with NRule _ | NBase _ _ _ | NSkip => True | _ => False end.
Lemma contents_inside f n c ls rest : Forall is_inside ls ->
  nft_contents (Some (f, n)) (Some c) (ls ++ rest) = option_map (app (map (pair (f, n, c)) (flat_map inside ls))) (nft_contents (Some (f, n)) (Some c) rest).
Proof.
  induction 1 as [|x ls H F IH]; [rewrite omap_nil; reflexivity|]. cbn [app flat_map]. destruct x; try destruct H; cbn [nft_contents inside app map]; rewrite IH;
    destruct (nft_contents (Some (f, n)) (Some c) rest); reflexivity.
Qed.
Lemma reads_chain f n c lines ls : nft_name c = true -> (forall s, In s lines -> has_char newline s = false) ->
  all_some (map nft_line lines) = Some ls -> Forall is_inside ls ->
  reads f n ([tab4 ("chain " ++ c ++ " {")] ++ lines ++ [tab4 "}"]) [((f, n, c), flat_map inside ls)].
Proof.
  intros Nc Nl El F. destruct (chain_line c Nc) as (L1 & L2). split.
  - intros s I. apply in_app_or in I. destruct I as [[<-|[]]|I]; [exact L2|]. apply in_app_or in I. destruct I as [I|[<-|[]]]; [auto|reflexivity].
  - exists ([NChain c] ++ ls ++ [NClose]). split.
    + rewrite map_app. apply all_some_cat; [cbn [map all_some]; rewrite L1; reflexivity|]. rewrite map_app. apply all_some_cat; [exact El|reflexivity].
    + intros rest. rewrite <- !app_assoc. cbn [app nft_contents]. rewrite (contents_inside f n c ls _ F). cbn [app nft_contents].
      unfold spread. cbn [flat_map fst snd map]. rewrite app_nil_r. destruct (nft_contents (Some (f, n)) None rest); reflexivity.
Qed.
