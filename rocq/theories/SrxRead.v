(** The parts of SRX configurations read as statements. *)
From Coq Require Import Lia ZifyBool ZifyNat.
From Verif Require Import SpecSrx BaseFacts TextProofs PyStrFacts PortProofs GenProofs GenProofs2 WrapProofs CiscoProofs JuniperText JuniperProofs GceProofs SrxText.
Local Open Scope string_scope.
Local Open Scope list_scope.
Local Open Scope Z_scope.

Lemma chunk_semi ws : plain_words ws -> ws <> [] -> chunk (join " " ws ++ ";")%string (ws ++ [";"]).
Proof.
  induction ws as [|w ws IH]; [congruence|]. intros P _. destruct ws as [|w' ws].
  - cbn [join app]. apply (chunk_word_special w ";"); [apply P; left; reflexivity|reflexivity].
  - change (join " " (w :: w' :: ws)) with (w ++ " " ++ join " " (w' :: ws))%string. rewrite !str_app_assoc.
    change ((w :: w' :: ws) ++ [";"]) with (w :: ((w' :: ws) ++ [";"])). apply chunk_key; [apply P; left; reflexivity|].
    apply IH; [intros s I; apply P; right; exact I|discriminate].
Qed.
Lemma chunk_open ws : plain_words ws -> ws <> [] -> chunk (join " " ws ++ " {")%string (ws ++ ["{"]).
Proof.
  intros P N. change " {" with (" " ++ String "{" "")%string. rewrite <- str_app_assoc. apply chunk_app; [apply chunk_words; assumption|].
  apply (chunk_special "{"); reflexivity.
Qed.
(** A leaf and a block given by their words. *)
Lemma leaf_words n line ws : line = (join " " ws ++ ";")%string -> plain_words ws -> ws <> [] -> renders [srx_line n line] [Leaf ws].
Proof. intros -> P N. apply srx_leaf, chunk_semi; assumption. Qed.
Lemma block_words n m head ws lines body : head = (join " " ws ++ " {")%string -> plain_words ws -> ws <> [] -> renders lines body ->
  renders ([srx_line n head] ++ lines ++ [srx_line m "}"]) [Block ws body].
Proof. intros -> P N R. apply srx_block; [apply chunk_open; assumption|exact R]. Qed.
Lemma list_leaf n k l : plain_word k -> plain_words l -> l <> [] -> renders [srx_line n (srx_list k l)] [Leaf (k :: "[" :: l ++ ["]"])].
Proof. intros K P N. apply srx_leaf, chunk_srx_list; assumption. Qed.
Lemma plain_cons w ws : plain_word w -> plain_words ws -> plain_words (w :: ws).
Proof. intros A B s [<-|I]; auto. Qed.
Lemma plain_nil : plain_words [].
Proof. intros s []. Qed.
Lemma plain_cat a b : plain_word a -> forall_char plain_char b = true -> plain_word (a ++ b)%string.
Proof. intros (N & P) Q. split; [destruct a; [congruence|discriminate]|apply forall_char_cat; assumption]. Qed.
Ltac plain := repeat (apply plain_cons; [first [assumption|apply plain_lit; reflexivity]|]); apply plain_nil.
Lemma dec_plain_chars n : 0 <= n -> forall_char plain_char (dec n) = true.
Proof. intros H. apply (dec_plain n H). Qed.
Lemma numbered_ge {A} (l : list A) : forall k n x, In (n, x) (numbered k l) -> k <= n.
Proof.
  induction l as [|y l IH]; intros k n x I; [destruct I|]. cbn [numbered] in I. destruct I as [E|I].
  - apply pair_equal_spec in E. lia.
  - apply IH in I. lia.
Qed.
Lemma numbered_in {A} (l : list A) : forall k x, In x l <-> exists n, In (n, x) (numbered k l).
Proof.
  induction l as [|y l IH]; intros k x; cbn [numbered In].
  - split; [intros []|intros (n & [])].
  - rewrite (IH (k + 1)). split.
    + intros [->|(n & I)]; [exists k; left; reflexivity|exists n; right; exact I].
    + intros (n & [E|I]); [left; apply pair_equal_spec in E; tauto|right; exists n; exact I].
Qed.
Lemma numbered_fun {A} (l : list A) : forall k n x y, In (n, x) (numbered k l) -> In (n, y) (numbered k l) -> x = y.
Proof.
  induction l as [|z l IH]; intros k n x y I J; [destruct I|]. cbn [numbered] in I, J.
  destruct I as [I|I], J as [J|J].
  - apply pair_equal_spec in I, J. destruct I, J. congruence.
  - apply pair_equal_spec in I. apply numbered_ge in J. lia.
  - apply pair_equal_spec in J. apply numbered_ge in I. lia.
  - exact (IH _ _ _ _ I J).
Qed.

(** ** Address books *)
Definition member_name (g : string) (k : Z) : string := (g ++ "_" ++ dec k)%string.
Lemma member_plain g k : plain_word g -> 0 <= k -> plain_word (member_name g k).
Proof.
  intros G K. unfold member_name. apply plain_cat; [exact G|]. change ("_" ++ dec k)%string with (String "_" (dec k)). cbn [forall_char].
  rewrite (dec_plain_chars k K). reflexivity.
Qed.
Definition address_stmt (g : string) (ka : Z * net) : stmt := Leaf ["address"; member_name g (fst ka); prefixlen_text (snd ka)].
Definition member_stmt (g : string) (ka : Z * net) : stmt := Leaf ["address"; member_name g (fst ka)].
Definition set_stmt (g : string * list net) : stmt := Block ["address-set"; fst g] (map (member_stmt (fst g)) (numbered 0 (snd g))).
Definition group_stmts (groups : list (string * list net)) : list stmt :=
  flat_map (fun g => map (address_stmt (fst g)) (numbered 0 (snd g))) groups ++ map set_stmt groups.
Definition groups_ok (groups : list (string * list net)) : Prop := forall g l, In (g, l) groups -> plain_word g /\ valid_list l.
Lemma valid_in l n : valid_list l -> In n l -> valid n.
Proof. intros V. unfold valid_list in V. rewrite Forall_forall in V. apply V. Qed.
Lemma groups_render groups : groups_ok groups -> renders (srx_groups groups) (group_stmts groups).
Proof.
  intros G. unfold srx_groups, group_stmts. apply renders_app.
  - apply renders_concat_map. intros (g & l) I. destruct (G g l I) as (P & V). cbn [fst snd]. apply renders_leaves. intros (k & a) J.
    pose proof (numbered_ge _ _ _ _ J) as K. assert (Ia : In a l) by (apply (numbered_in l 0); exists k; exact J).
    pose proof (member_plain g k P K) as M. pose proof (prefix_plain a (valid_in _ _ V Ia)) as Q. unfold address_stmt. cbn [fst snd].
    apply leaf_words; [|plain|discriminate]. cbn [join]. unfold member_name. rewrite !str_app_assoc. reflexivity.
  - apply renders_map. intros (g & l) I. destruct (G g l I) as (P & V). cbn [fst snd]. unfold set_stmt. cbn [fst snd].
    apply block_words; [|plain|discriminate|].
    + cbn [join]. rewrite !str_app_assoc. reflexivity.
    + apply renders_leaves. intros (k & a) J. pose proof (numbered_ge _ _ _ _ J) as K. pose proof (member_plain g k P K) as M. unfold member_stmt. cbn [fst snd].
      apply leaf_words; [|plain|discriminate]. cbn [join]. unfold member_name. rewrite !str_app_assoc. reflexivity.
Qed.
Lemma plain_oks l : plain_words l -> forallb word_ok l = true.
Proof. apply words_ok. Qed.
Lemma groups_stmt_ok groups : groups_ok groups -> forallb stmt_ok (group_stmts groups) = true.
Proof.
  intros G. unfold group_stmts. rewrite forallb_app. apply andb_true_iff. split; apply forallb_forall; intros s I.
  - apply in_flat_map in I. destruct I as ((g & l) & I & J). destruct (G g l I) as (P & V). cbn [fst snd] in J. apply in_map_iff in J. destruct J as ((k & a) & <- & J).
    pose proof (numbered_ge _ _ _ _ J) as K. assert (Ia : In a l) by (apply (numbered_in l 0); exists k; exact J). unfold address_stmt. cbn [fst snd stmt_ok].
    apply plain_oks. pose proof (member_plain g k P K). pose proof (prefix_plain a (valid_in _ _ V Ia)). plain.
  - apply in_map_iff in I. destruct I as ((g & l) & <- & I). destruct (G g l I) as (P & V). unfold set_stmt. cbn [fst snd stmt_ok]. apply andb_true_iff. split; [apply plain_oks; plain|].
    apply forallb_forall. intros s J. apply in_map_iff in J. destruct J as ((k & a) & <- & J). pose proof (numbered_ge _ _ _ _ J) as K. unfold member_stmt. cbn [fst snd stmt_ok].
    apply plain_oks. pose proof (member_plain g k P K). plain.
Qed.
(** What the names of such a book stand for. *)
Lemma dec_no_underscore n : 0 <= n -> has_char "_" (dec n) = false.
Proof. intros H. apply (forall_char_has is_digit); [apply dec_digits, H|reflexivity]. Qed.
Lemma last_part a b x y : has_char "_" x = false -> has_char "_" y = false -> (a ++ String "_" x)%string = (b ++ String "_" y)%string -> a = b /\ x = y.
Proof.
  revert b. induction a as [|c a IH]; intros b X Y E.
  - destruct b as [|d b]; cbn [append] in E.
    + injection E as E. split; [reflexivity|exact E].
    + injection E as _ E. subst x. exfalso. clear - X. induction b as [|e b IH]; cbn [append has_char] in X; [discriminate X|]. apply orb_false_iff in X. apply IH, X.
  - destruct b as [|d b]; cbn [append] in E.
    + injection E as _ E. subst y. exfalso. clear - Y. induction a as [|e a IH]; cbn [append has_char] in Y; [discriminate Y|]. apply orb_false_iff in Y. apply IH, Y.
    + injection E as -> E. destruct (IH b X Y E) as (-> & ->). auto.
Qed.
Lemma member_inj g h j k : 0 <= j -> 0 <= k -> member_name g j = member_name h k -> g = h /\ j = k.
Proof.
  intros J K E. unfold member_name in E. destruct (last_part g h (dec j) (dec k)) as (A & B); [apply dec_no_underscore, J|apply dec_no_underscore, K|exact E|].
  split; [exact A|]. pose proof (dec_value j J) as V. rewrite B, (dec_value k K) in V. congruence.
Qed.
Lemma address_says_in groups n x : groups_ok groups -> on_net x ->
  address_says (group_stmts groups) n x <-> exists g l k a, In (g, l) groups /\ In (k, a) (numbered 0 l) /\ n = member_name g k /\ covers a x.
Proof.
  intros G N. unfold address_says, group_stmts. split.
  - intros (pfx & I & S). apply in_app_or in I. destruct I as [I|I].
    + apply in_flat_map in I. destruct I as ((g & l) & I & J). cbn [fst snd] in J. apply in_map_iff in J. destruct J as ((k & a) & E & J).
      unfold address_stmt in E. cbn [fst snd] in E. assert (E1 : member_name g k = n /\ prefixlen_text a = pfx) by (split; congruence). destruct E1 as (<- & <-).
      exists g, l, k, a. split; [exact I|]. split; [exact J|]. split; [reflexivity|]. destruct (G g l I) as (_ & V).
      apply (range_text a x); [|exact N|exact S]. apply (valid_in l); [exact V|]. apply (numbered_in l 0). exists k. exact J.
    + apply in_map_iff in I. destruct I as (g & E & _). unfold set_stmt in E. discriminate E.
  - intros (g & l & k & a & I & J & -> & C). exists (prefixlen_text a). split.
    + apply in_or_app. left. apply in_flat_map. exists (g, l). split; [exact I|]. apply in_map_iff. exists (k, a). split; [reflexivity|exact J].
    + destruct (G g l I) as (_ & V). apply (range_text a x); [|exact N|exact C]. apply (valid_in l); [exact V|]. apply (numbered_in l 0). exists k. exact J.
Qed.
Lemma groups_say groups n x : groups_ok groups -> on_net x -> NoDup (map fst groups) ->
  (forall g l k, In (g, l) groups -> 0 <= k -> n <> member_name g k) ->
  name_says (group_stmts groups) n x <-> exists l, In (n, l) groups /\ covered l x.
Proof.
  intros G N U F. unfold name_says. split.
  - intros [A|(ms & a & I & J & A)].
    + apply address_says_in in A; [|exact G|exact N]. destruct A as (g & l & k & a & I & J & E & _). exfalso.
      exact (F g l k I (numbered_ge _ _ _ _ J) E).
    + apply address_says_in in A; [|exact G|exact N]. destruct A as (g & l & k & b & I' & J' & -> & C).
      unfold group_stmts in I. apply in_app_or in I. destruct I as [I|I].
      * apply in_flat_map in I. destruct I as (h & _ & I). apply in_map_iff in I. destruct I as (ka & E & _). discriminate E.
      * apply in_map_iff in I. destruct I as ((h & l') & E & I). unfold set_stmt in E. cbn [fst snd] in E.
        assert (E1 : h = n) by congruence. assert (E2 : map (member_stmt h) (numbered 0 l') = ms) by congruence. subst h ms.
        apply in_map_iff in J. destruct J as ((k' & b') & E0 & J). unfold member_stmt in E0. cbn [fst snd] in E0.
        assert (E3 : member_name n k' = member_name g k) by congruence.
        destruct (member_inj n g k' k (numbered_ge _ _ _ _ J) (numbered_ge _ _ _ _ J') E3) as (<- & <-).
        exists l. split; [exact I'|]. exists b. split; [|exact C]. apply (numbered_in l 0). exists k'. exact J'.
  - intros (l & I & (a & Ia & C)). right. apply (numbered_in l 0) in Ia. destruct Ia as (k & J).
    exists (map (member_stmt n) (numbered 0 l)), (member_name n k). split.
    + unfold group_stmts. apply in_or_app. right. apply in_map_iff. exists (n, l). split; [reflexivity|exact I].
    + split; [apply in_map_iff; exists (k, a); split; [reflexivity|exact J]|]. apply address_says_in; [exact G|exact N|]. exists n, l, k, a. auto.
Qed.
