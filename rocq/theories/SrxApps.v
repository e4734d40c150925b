(** Applications of SRX configurations: their text and what it stands for. *)
From Coq Require Import Lia ZifyBool ZifyNat.
From Verif Require Import SpecSrx BaseFacts TextProofs PyStrFacts PortProofs GenProofs GenProofs2 CiscoProofs JuniperText JuniperProofs JuniperTerm SrxText SrxRead.
Local Open Scope string_scope.
Local Open Scope list_scope.
Local Open Scope Z_scope.

(** ** Names *)
Lemma last_char c a b x y : has_char c x = false -> has_char c y = false -> (a ++ String c x)%string = (b ++ String c y)%string -> a = b /\ x = y.
Proof.
  revert b. induction a as [|d a IH]; intros b X Y E.
  - destruct b as [|e b]; cbn [append] in E.
    + injection E as E. split; [reflexivity|exact E].
    + injection E as _ E. subst x. exfalso. clear - X. induction b as [|f b IH]; cbn [append has_char] in X; [rewrite Ascii.eqb_refl in X; discriminate X|].
      apply orb_false_iff in X. apply IH, X.
  - destruct b as [|e b]; cbn [append] in E.
    + injection E as _ E. subst y. exfalso. clear - Y. induction a as [|f a IH]; cbn [append has_char] in Y; [rewrite Ascii.eqb_refl in Y; discriminate Y|].
      apply orb_false_iff in Y. apply IH, Y.
    + injection E as -> E. destruct (IH b X Y E) as (-> & ->). auto.
Qed.
Definition app_name (a : srx_app) : string := (ap_name a ++ "-app")%string.
Definition part_name (a : srx_app) (k : Z) : string := (ap_name a ++ "-app" ++ dec k)%string.
Lemma dec_no_p k : 0 <= k -> has_char "p" (dec k) = false.
Proof. intros H. apply (forall_char_has is_digit); [apply dec_digits, H|reflexivity]. Qed.
Lemma app_split n x : (n ++ "-app" ++ x)%string = ((n ++ "-ap") ++ String "p" x)%string.
Proof. rewrite str_app_assoc. reflexivity. Qed.
Lemma app_name_inj a b : app_name a = app_name b -> ap_name a = ap_name b.
Proof.
  unfold app_name. intros E. apply (f_equal (fun s => (s ++ "")%string)) in E. rewrite !str_app_assoc, !app_split in E.
  apply last_char in E; [|reflexivity..]. destruct E as (E & _). change "-ap" with ("-a" ++ String "p" "")%string in E. rewrite <- !str_app_assoc in E.
  apply last_char in E; [|reflexivity..]. destruct E as (E & _). change "-a" with ("-" ++ String "a" "")%string in E. rewrite <- !str_app_assoc in E.
  apply last_char in E; [|reflexivity..]. destruct E as (E & _). change "-" with (String "-" "") in E. apply last_char in E; [apply E|reflexivity..].
Qed.
Lemma app_not_part a b k : 0 <= k -> app_name a <> part_name b k.
Proof.
  unfold app_name, part_name. intros K E. change ((ap_name a ++ "-app")%string) with ((ap_name a ++ "-app" ++ "")%string) in E. rewrite !app_split in E.
  apply last_char in E; [|reflexivity|apply dec_no_p, K]. destruct E as (_ & E). pose proof (dec_nonempty k). congruence.
Qed.
Lemma part_inj a b j k : 0 <= j -> 0 <= k -> part_name a j = part_name b k -> ap_name a = ap_name b /\ j = k.
Proof.
  unfold part_name. intros J K E. rewrite !app_split in E. apply last_char in E; [|apply dec_no_p, J|apply dec_no_p, K]. destruct E as (E1 & E2). split.
  - apply app_name_inj. unfold app_name. change "-app" with ("-ap" ++ "p")%string. rewrite <- !str_app_assoc, E1. reflexivity.
  - exact (dec_inj j k J K E2).
Qed.
Lemma app_not_any a : app_name a <> "any".
Proof.
  unfold app_name. destruct (ap_name a) as [|c [|d [|e s]]]; cbn [append]; try discriminate. destruct s; discriminate.
Qed.

(** ** Statements *)
Definition label (k : Z) : string := ("t" ++ dec k)%string.
Definition icmp_words (q : string) (code : Z) : list string := ["protocol"; q; (q ++ "-type")%string; dec code; "inactivity-timeout"; "60"].
Definition opt_words {A} (key : string) (f : A -> string) (o : option A) : list string := match o with Some x => [key; f x] | None => [] end.
Definition protocol_text (x : pval) : string := if pval_is "vrrp" x then "112" else pval_text x.
Definition same_text (s : string) : string := s.
Definition combo_words (c : option pval * option string * option string) : list string :=
  opt_words "protocol" protocol_text (fst (fst c)) ++ opt_words "source-port" same_text (snd (fst c)) ++ opt_words "destination-port" same_text (snd c).
Definition combos (a : srx_app) : list (option pval * option string * option string) :=
  flat_map (fun q => flat_map (fun s => map (fun d => (q, s, d)) (or_blank (ap_dport a))) (or_blank (ap_sport a))) (or_blank (ap_protocol a)).
Definition icmp_text (a : srx_app) : string := match ap_protocol a with q :: _ => pval_text q | [] => "" end.
(** The conditions, one of which has to hold, in their order. *)
Definition conds (a : srx_app) : list (list string) :=
  if some (ap_types a) then map (icmp_words (icmp_text a)) (ap_types a) else map combo_words (combos a).
Definition small (a : srx_app) : bool := some (ap_types a) && (Zlen (ap_types a) <? 8).
Definition part_label (a : srx_app) (k : Z) : string := if some (ap_types a) then "t1" else label k.
Definition term_stmt (l : string) (ws : list string) : stmt := Leaf ("term" :: l :: ws).
Definition part_stmts (a : srx_app) : list stmt :=
  map (fun kc => Block ["application"; part_name a (fst kc)] [term_stmt (part_label a (fst kc)) (snd kc)]) (numbered 1 (conds a)).
Definition set_of (a : srx_app) : stmt := Block ["application-set"; app_name a] (map (fun kc => Leaf ["application"; part_name a (fst kc)]) (numbered 1 (conds a))).
Definition small_stmt (a : srx_app) : stmt := Block ["application"; app_name a] (map (fun kc => term_stmt (label (fst kc)) (snd kc)) (numbered 1 (conds a))).
Definition app_first (a : srx_app) : list stmt :=
  if some (ap_types a) then if small a then [small_stmt a] else set_of a :: part_stmts a else part_stmts a.
Definition app_second (a : srx_app) : list stmt := if some (ap_types a) then [] else [set_of a].
Definition app_stmts (l : list srx_app) : list stmt := flat_map app_first l ++ flat_map app_second l.

(** ** What they stand for *)
Lemma in_applications l n body : In (Block ["application"; n] body) (app_stmts l) <->
  exists a, In a l /\ ((small a = true /\ n = app_name a /\ body = map (fun kc => term_stmt (label (fst kc)) (snd kc)) (numbered 1 (conds a))) \/
                       (small a = false /\ exists k ws, In (k, ws) (numbered 1 (conds a)) /\ n = part_name a k /\ body = [term_stmt (part_label a k) ws])).
Proof.
  unfold app_stmts. rewrite in_app_iff, !in_flat_map. split.
  - intros [(a & I & J)|(a & I & J)].
    + exists a. split; [exact I|]. unfold app_first in J.
      assert (P : forall s, In s (part_stmts a) -> s = Block ["application"; n] body -> exists k ws, In (k, ws) (numbered 1 (conds a)) /\ n = part_name a k /\ body = [term_stmt (part_label a k) ws]).
      { intros s K E. apply in_map_iff in K. destruct K as ((k & ws) & E' & K). exists k, ws. cbn [fst snd] in E'. split; [exact K|]. split; congruence. }
      destruct (some (ap_types a)) eqn:S.
      * destruct (small a) eqn:Sm.
        -- destruct J as [E|[]]. left. unfold small_stmt in E. split; [reflexivity|]. split; congruence.
        -- right. split; [reflexivity|]. destruct J as [E|J]; [discriminate E|]. exact (P _ J eq_refl).
      * right. split; [unfold small; rewrite S; reflexivity|exact (P _ J eq_refl)].
    + unfold app_second in J. destruct (some (ap_types a)); [destruct J|]. destruct J as [E|[]]. discriminate E.
  - intros (a & I & [(Sm & -> & ->)|(Sm & k & ws & K & -> & ->)]); left; exists a; (split; [exact I|]); unfold app_first.
    + assert (S : some (ap_types a) = true) by (unfold small in Sm; apply andb_true_iff in Sm; apply Sm). rewrite S, Sm. left. reflexivity.
    + assert (P : In (Block ["application"; part_name a k] [term_stmt (part_label a k) ws]) (part_stmts a)) by (apply in_map_iff; exists (k, ws); auto).
      rewrite Sm. destruct (some (ap_types a)); [right|]; exact P.
Qed.
Lemma in_sets l n ms : In (Block ["application-set"; n] ms) (app_stmts l) <->
  exists a, In a l /\ small a = false /\ n = app_name a /\ ms = map (fun kc => Leaf ["application"; part_name a (fst kc)]) (numbered 1 (conds a)).
Proof.
  unfold app_stmts. rewrite in_app_iff, !in_flat_map. split.
  - intros [(a & I & J)|(a & I & J)]; exists a; (split; [exact I|]).
    + assert (P : ~ In (Block ["application-set"; n] ms) (part_stmts a)) by (intros K; apply in_map_iff in K; destruct K as (kc & E & _); discriminate E).
      unfold app_first in J. destruct (some (ap_types a)); [|destruct (P J)]. destruct (small a) eqn:Sm.
      * destruct J as [E|[]]. discriminate E.
      * destruct J as [E|J]; [|destruct (P J)]. unfold set_of in E. split; [reflexivity|]. split; congruence.
    + unfold app_second in J. destruct (some (ap_types a)) eqn:S; [destruct J|]. destruct J as [E|[]]. unfold set_of in E.
      split; [unfold small; rewrite S; reflexivity|]. split; congruence.
  - intros (a & I & Sm & -> & ->). destruct (some (ap_types a)) eqn:S.
    + left. exists a. split; [exact I|]. unfold app_first. rewrite S, Sm. left. reflexivity.
    + right. exists a. split; [exact I|]. unfold app_second. rewrite S. left. reflexivity.
Qed.
Lemma numbered_nodup {A} (l : list A) : forall k, NoDup (map fst (numbered k l)).
Proof.
  induction l as [|x l IH]; intros k; cbn [numbered map]; constructor; [|apply IH]. cbn [fst]. intros I. apply in_map_iff in I. destruct I as ((n & y) & E & I).
  cbn [fst] in E. subst n. apply numbered_ge in I. lia.
Qed.
Lemma label_inj j k : 0 <= j -> 0 <= k -> label j = label k -> j = k.
Proof. unfold label. intros J K E. cbn [append] in E. apply (dec_inj j k J K). congruence. Qed.
Lemma conds_in a ws : In ws (conds a) <-> exists k, In (k, ws) (numbered 1 (conds a)).
Proof. apply numbered_in. Qed.
Lemma app_text_says l a p : In a l -> NoDup (map ap_name l) ->
  (app_name a = "any" \/ application_says (app_stmts l) (app_name a) p \/
   exists members m, In (Block ["application-set"; app_name a] members) (app_stmts l) /\ In (Leaf ["application"; m]) members /\ application_says (app_stmts l) m p)
  <-> exists ws, In ws (conds a) /\ app_conditions p ws.
Proof.
  intros I U.
  assert (Same : forall b, In b l -> ap_name b = ap_name a -> b = a).
  { clear - I U. intros b J E. induction l as [|c l IH]; [destruct J|]. cbn [map] in U. inversion U as [|? ? U1 U2]; subst. destruct I as [->|I], J as [->|J]; auto.
    - destruct U1. rewrite <- E. apply in_map, J.
    - destruct U1. rewrite E. apply in_map, I. }
  split.
  - intros [E|[A|(members & m & J & K & A)]].
    + destruct (app_not_any a E).
    + destruct A as (body & before & n & ws & after & J & B & F & C). apply in_applications in J. destruct J as (b & Ib & [(Sm & E & ->)|(Sm & k & ws' & K & E & ->)]).
      * apply app_name_inj in E. pose proof (Same b Ib (eq_sym E)) as ->.
        assert (J : In (Leaf ("term" :: n :: ws)) (map (fun kc => term_stmt (label (fst kc)) (snd kc)) (numbered 1 (conds a)))) by (rewrite B; apply in_or_app; right; left; reflexivity).
        apply in_map_iff in J. destruct J as ((k & ws') & E' & J). cbn [fst snd] in E'. unfold term_stmt in E'. assert (ws' = ws) by congruence. subst ws'.
        exists ws. split; [apply conds_in; eauto|exact C].
      * destruct (app_not_part a b k) in E; [|exact E]. apply numbered_ge in K. lia.
    + apply in_sets in J. destruct J as (b & Ib & Sm & E & ->). apply app_name_inj in E. pose proof (Same b Ib (eq_sym E)) as ->. clear E.
      apply in_map_iff in K. destruct K as ((k & ws0) & E & K). cbn [fst] in E. assert (Em : m = part_name a k) by congruence. subst m. clear E. pose proof (numbered_ge _ _ _ _ K) as Kk.
      destruct A as (body & before & n & ws & after & J & B & F & C). apply in_applications in J. destruct J as (b & Ib' & [(Sm' & E & ->)|(Sm' & k' & ws' & K' & E & ->)]).
      * symmetry in E. destruct (app_not_part b a k) in E; [lia|exact E].
      * pose proof (numbered_ge _ _ _ _ K') as Kk'. apply part_inj in E; [|lia..]. destruct E as (E & <-). pose proof (Same b Ib' (eq_sym E)) as ->.
        assert (J : In (Leaf ("term" :: n :: ws)) [term_stmt (part_label a k) ws']) by (rewrite B; apply in_or_app; right; left; reflexivity).
        destruct J as [E'|[]]. unfold term_stmt in E'. assert (ws' = ws) by congruence. subst ws'. exists ws. split; [apply conds_in; eauto|exact C].
  - intros (ws & J & C). apply conds_in in J. destruct J as (k & J). pose proof (numbered_ge _ _ _ _ J) as Kk. right. destruct (small a) eqn:Sm.
    + left. destruct (in_split _ _ J) as (b1 & b2 & E).
      exists (map (fun kc => term_stmt (label (fst kc)) (snd kc)) (numbered 1 (conds a))), (map (fun kc => term_stmt (label (fst kc)) (snd kc)) b1), (label k), ws,
        (map (fun kc => term_stmt (label (fst kc)) (snd kc)) b2).
      split; [apply in_applications; exists a; split; [exact I|]; left; auto|]. split; [rewrite E, map_app; reflexivity|]. split; [|exact C].
      intros s Is (ws' & Es). apply in_map_iff in Is. destruct Is as ((k' & ws'') & E' & Is). cbn [fst snd] in E'. rewrite Es in E'. unfold term_stmt in E'.
      assert (El : label k' = label k) by congruence.
      assert (Kk' : 1 <= k') by (apply (numbered_ge (conds a) 1 k' ws''); rewrite E; apply in_or_app; right; right; exact Is).
      apply label_inj in El; [|lia..]. subst k'. pose proof (numbered_nodup (conds a) 1) as Nd. rewrite E, map_app in Nd. cbn [map fst] in Nd. apply NoDup_remove_2 in Nd.
      apply Nd. apply in_or_app. right. exact (in_map fst _ _ Is).
    + right. exists (map (fun kc => Leaf ["application"; part_name a (fst kc)]) (numbered 1 (conds a))), (part_name a k). split; [apply in_sets; exists a; auto|].
      split; [apply in_map_iff; exists (k, ws); auto|]. exists [term_stmt (part_label a k) ws], [], (part_label a k), ws, [].
      split; [apply in_applications; exists a; split; [exact I|]; right; split; [exact Sm|]; exists k, ws; auto|]. split; [reflexivity|]. split; [intros s []|exact C].
Qed.

(** ** The text *)
Fixpoint spaced (ws : list string) : string := match ws with [] => "" | w :: r => (" " ++ w ++ spaced r)%string end.
Lemma join_spaced w ws : join " " (w :: ws) = (w ++ spaced ws)%string.
Proof.
  revert w. induction ws as [|v ws IH]; intros w; [cbn; rewrite str_app_nil; reflexivity|].
  change (join " " (w :: v :: ws)) with (w ++ " " ++ join " " (v :: ws))%string. rewrite IH. cbn [spaced]. reflexivity.
Qed.
Lemma spaced_app a b : spaced (a ++ b) = (spaced a ++ spaced b)%string.
Proof. induction a as [|w a IH]; [reflexivity|]. cbn [app spaced]. rewrite IH, !str_app_assoc. reflexivity. Qed.
Lemma chunks_spaced q s d : app_chunks q s d = spaced (combo_words (q, s, d)).
Proof.
  unfold app_chunks, combo_words. cbn [fst snd]. rewrite !spaced_app. unfold opt_words, same_text, protocol_text.
  destruct q, s, d; cbn [spaced]; rewrite ?str_app_nil, ?str_app_assoc; reflexivity.
Qed.
Lemma app_terms_combos a : app_content a = true -> ap_types a = [] ->
  app_terms a = map (fun kc => (fst kc, spaced (snd kc))) (numbered 1 (conds a)).
Proof.
  intros C T. unfold app_terms, conds. rewrite T. cbn [some].
  assert (M : forall A B (f : A -> B) (l : list A) k, numbered k (map f l) = map (fun kc => (fst kc, f (snd kc))) (numbered k l)).
  { intros A B f l. induction l as [|x l IH]; intros k; [reflexivity|]. cbn [map numbered]. rewrite IH. reflexivity. }
  assert (E : flat_map (fun q => flat_map (fun s => map (app_chunks q s) (or_blank (ap_dport a))) (or_blank (ap_sport a))) (or_blank (ap_protocol a)) = map spaced (map combo_words (combos a))).
  { unfold combos. rewrite map_map. generalize (or_blank (ap_protocol a)) as qs. induction qs as [|q qs IH]; [reflexivity|]. cbn [flat_map]. rewrite map_app, IH. f_equal.
    generalize (or_blank (ap_sport a)) as ss. induction ss as [|s ss IHs]; [reflexivity|]. cbn [flat_map]. rewrite map_app, IHs. f_equal.
    rewrite map_map. apply map_ext. intros d. apply chunks_spaced. }
  rewrite E. rewrite <- M. f_equal. clear E M.
  assert (Ne : forall c, In c (combos a) -> combo_words c <> []).
  { intros ((q & s) & d) I. unfold combos in I. apply in_flat_map in I. destruct I as (q' & Iq & I). apply in_flat_map in I. destruct I as (s' & Is & I).
    apply in_map_iff in I. destruct I as (d' & E & Id). assert (E1 : q' = q /\ s' = s /\ d' = d) by (repeat split; congruence). destruct E1 as (-> & -> & ->).
    unfold app_content in C. rewrite T in C. cbn [some] in C. rewrite orb_false_r in C. unfold combo_words. cbn [fst snd].
    destruct (ap_protocol a) as [|x xs]; [|destruct q; [discriminate|cbn in Iq; destruct Iq as [Iq|Iq]; [discriminate Iq|apply in_map_iff in Iq; destruct Iq as (? & Iq & _); discriminate Iq]]].
    destruct (ap_sport a) as [|x xs]; [|destruct s; [destruct q; discriminate|cbn in Is; destruct Is as [Is|Is]; [discriminate Is|apply in_map_iff in Is; destruct Is as (? & Is & _); discriminate Is]]].
    destruct (ap_dport a) as [|x xs]; [discriminate C|]. destruct d; [destruct q, s; discriminate|]. cbn in Id. destruct Id as [Id|Id]; [discriminate Id|].
    apply in_map_iff in Id. destruct Id as (? & Id & _). discriminate Id. }
  induction (combos a) as [|c l IH]; [reflexivity|]. cbn [map filter]. destruct (combo_words c) as [|w ws] eqn:W; [destruct (Ne c (or_introl eq_refl) W)|].
  change (is_empty (spaced (w :: ws))) with false. cbn [negb]. rewrite IH; [reflexivity|]. intros c' I. apply Ne. right. exact I.
Qed.

(** Applications whose words are those of the configuration language. *)
Record app_good (a : srx_app) : Prop := {
  ag_name : plain_word (ap_name a);
  ag_protocol : plain_words (map pval_text (ap_protocol a));
  ag_ports : plain_words (ap_sport a ++ ap_dport a);
  ag_types : ap_types a <> [] -> (exists q, ap_protocol a = [q]) /\ (forall n, In n (ap_types a) -> 0 <= n) /\ Zlen (ap_types a) <> 8 }.
Lemma app_plain a : app_good a -> plain_word (app_name a).
Proof. intros G. apply plain_cat; [apply G|reflexivity]. Qed.
Lemma part_plain a k : app_good a -> 0 <= k -> plain_word (part_name a k).
Proof.
  intros G K. apply plain_cat; [apply G|]. change ("-app" ++ dec k)%string with (String "-" (String "a" (String "p" (String "p" (dec k))))). cbn [forall_char].
  rewrite (dec_plain_chars k K). reflexivity.
Qed.
Lemma label_plain k : 0 <= k -> plain_word (label k).
Proof. intros K. apply (plain_cat "t"); [apply plain_lit; reflexivity|apply dec_plain_chars, K]. Qed.
Lemma part_label_plain a k : 0 <= k -> plain_word (part_label a k).
Proof. intros K. unfold part_label. destruct (some _); [apply plain_lit; reflexivity|apply label_plain, K]. Qed.
Lemma or_blank_in {A} (l : list A) x : In (Some x) (or_blank l) -> In x l.
Proof. destruct l as [|y l]; intros I; [destruct I as [I|[]]; discriminate I|]. change (or_blank (y :: l)) with (map Some (y :: l)) in I. apply in_map_iff in I. destruct I as (z & E & I). congruence. Qed.
Lemma plain_app a b : plain_words a -> plain_words b -> plain_words (a ++ b).
Proof. intros A B s I. apply in_app_or in I. destruct I; auto. Qed.
Lemma conds_plain a ws : app_good a -> In ws (conds a) -> plain_words ws.
Proof.
  intros G I. unfold conds in I. destruct (some (ap_types a)) eqn:S.
  - assert (N : ap_types a <> []) by (intros E; rewrite E in S; discriminate S). destruct (ag_types a G N) as ((q & Eq) & Nn & _).
    apply in_map_iff in I. destruct I as (code & <- & I). unfold icmp_words, icmp_text. rewrite Eq.
    assert (Pq : plain_word (pval_text q)) by (apply (ag_protocol a G); rewrite Eq; left; reflexivity).
    assert (Pt : plain_word (pval_text q ++ "-type")%string) by (apply plain_cat; [exact Pq|reflexivity]).
    pose proof (dec_plain code (Nn code I)) as Pd. plain.
  - apply in_map_iff in I. destruct I as (((q & s) & d) & <- & I). unfold combos in I. apply in_flat_map in I. destruct I as (q' & Iq & I). apply in_flat_map in I. destruct I as (s' & Is & I).
    apply in_map_iff in I. destruct I as (d' & E & Id). assert (E1 : q' = q /\ s' = s /\ d' = d) by (repeat split; congruence). destruct E1 as (-> & -> & ->). clear E.
    unfold combo_words. cbn [fst snd]. apply plain_app; [|apply plain_app].
    + destruct q as [x|]; cbn [opt_words]; [|apply plain_nil]. assert (Px : plain_word (protocol_text x)).
      { unfold protocol_text. destruct (pval_is "vrrp" x); [apply plain_lit; reflexivity|]. apply (ag_protocol a G). apply in_map, or_blank_in, Iq. }
      plain.
    + destruct s as [x|]; cbn [opt_words]; [|apply plain_nil]. assert (Px : plain_word (same_text x)) by (apply (ag_ports a G), in_or_app; left; apply or_blank_in, Is). plain.
    + destruct d as [x|]; cbn [opt_words]; [|apply plain_nil]. assert (Px : plain_word (same_text x)) by (apply (ag_ports a G), in_or_app; right; apply or_blank_in, Id). plain.
Qed.
Lemma term_line l ws text : plain_word l -> plain_words ws -> text = ("term " ++ l ++ spaced ws ++ ";")%string -> renders [srx_line 2 text] [term_stmt l ws].
Proof.
  intros L P ->. unfold term_stmt. apply leaf_words; [|apply plain_cons; [apply plain_lit; reflexivity|apply plain_cons; assumption]|discriminate].
  rewrite join_spaced. cbn [spaced]. rewrite !str_app_assoc. reflexivity.
Qed.
Lemma part_lines a k ws text : app_good a -> 0 <= k -> plain_words ws -> text = ("term " ++ part_label a k ++ spaced ws ++ ";")%string ->
  renders [srx_line 1 ("application " ++ ap_name a ++ "-app" ++ dec k ++ " {")%string; srx_line 2 text; srx_line 1 "}"] [Block ["application"; part_name a k] [term_stmt (part_label a k) ws]].
Proof.
  intros G K P E. pose proof (part_plain a k G K). change ([srx_line 1 ("application " ++ ap_name a ++ "-app" ++ dec k ++ " {"); srx_line 2 text; srx_line 1 "}"])%string
    with ([srx_line 1 ("application " ++ ap_name a ++ "-app" ++ dec k ++ " {")%string] ++ [srx_line 2 text] ++ [srx_line 1 "}"]).
  apply block_words; [|plain|discriminate|apply term_line; [apply part_label_plain, K|exact P|exact E]].
  unfold part_name. cbn [join]. rewrite !str_app_assoc. reflexivity.
Qed.
Lemma set_lines {B} a (l : list (Z * B)) : app_good a -> map fst l = map fst (numbered 1 (conds a)) -> (forall k x, In (k, x) l -> 0 <= k) ->
  renders ([srx_line 1 ("application-set " ++ ap_name a ++ "-app {")%string]
           ++ map (fun kc => srx_line 2 ("application " ++ ap_name a ++ "-app" ++ dec (fst kc) ++ ";")%string) l ++ [srx_line 1 "}"]) [set_of a].
Proof.
  intros G E K. pose proof (app_plain a G). unfold set_of. apply block_words; [|plain|discriminate|].
  - unfold app_name. cbn [join]. rewrite !str_app_assoc. reflexivity.
  - rewrite <- (map_map fst (fun k => Leaf ["application"; part_name a k])), <- E, map_map. apply renders_leaves. intros (k & x) I. cbn [fst].
    pose proof (part_plain a k G (K k x I)). apply leaf_words; [|plain|discriminate]. unfold part_name. cbn [join]. rewrite !str_app_assoc. reflexivity.
Qed.
Lemma plain_render a : app_good a -> app_content a = true -> ap_types a = [] ->
  renders (plain_application a) (part_stmts a) /\ renders (plain_set a) [set_of a].
Proof.
  intros G C T. assert (S : some (ap_types a) = false) by (rewrite T; reflexivity). pose proof (app_terms_combos a C T) as E. split.
  - unfold plain_application. rewrite E. unfold part_stmts. rewrite flat_map_concat_map, map_map, <- flat_map_concat_map. apply renders_map. intros (k & ws) I. cbn [fst snd].
    pose proof (numbered_ge _ _ _ _ I) as K. apply part_lines; [exact G|lia|apply (conds_plain a ws G), conds_in; eauto|].
    unfold part_label. rewrite S. unfold label. reflexivity.
  - unfold plain_set. apply set_lines; [exact G|rewrite E, map_map; reflexivity|]. intros k x I. rewrite E in I. apply in_map_iff in I. destruct I as ((k' & ws) & E' & I).
    apply pair_equal_spec in E'. destruct E' as (<- & _). apply numbered_ge in I. cbn [fst]. lia.
Qed.
Lemma icmp_pairs q types : forall j, numbered j (flat_map (fun ic : Z * Z => map (fun q => (fst ic, snd ic, pval_text q)) [q]) (numbered j types)) =
  map (fun kc => (fst kc, (fst kc, snd kc, pval_text q))) (numbered j types).
Proof. induction types as [|n l IH]; intros j; [reflexivity|]. cbn [numbered flat_map map app]. rewrite IH. reflexivity. Qed.
Lemma icmp_render a : app_good a -> ap_types a <> [] -> renders (icmp_application a) (app_first a).
Proof.
  intros G T. assert (S : some (ap_types a) = true) by (destruct (ap_types a); [congruence|reflexivity]).
  destruct (ag_types a G T) as ((q & Eq) & Nn & N8).
  assert (Ec : numbered 1 (conds a) = map (fun kc => (fst kc, icmp_words (pval_text q) (snd kc))) (numbered 1 (ap_types a))).
  { unfold conds, icmp_text. rewrite S, Eq. generalize 1. generalize (ap_types a). induction l as [|n l IH]; intros j; [reflexivity|]. cbn [map numbered]. rewrite IH. reflexivity. }
  assert (Pw : forall k n, In (k, n) (numbered 1 (ap_types a)) -> 0 <= k /\ plain_words (icmp_words (pval_text q) n)).
  { intros k n I. split; [apply numbered_ge in I; lia|]. apply (conds_plain a); [exact G|]. apply conds_in. exists k. rewrite Ec. apply in_map_iff. exists (k, n). auto. }
  pose proof (app_plain a G) as Pa. unfold icmp_application, app_first. rewrite S, Eq. unfold small. rewrite S. cbn [andb].
  replace (Zlen [q] * Zlen (ap_types a)) with (Zlen (ap_types a)) by (unfold Zlen; cbn [List.length]; lia).
  rewrite icmp_pairs.
  destruct (8 <? Zlen (ap_types a)) eqn:B.
  - assert (B1 : Zlen (ap_types a) <? 8 = false) by lia. rewrite B1. rewrite app_nil_r. apply (renders_app _ _ [set_of a]).
    + apply set_lines; [exact G| |].
      * rewrite Ec, !map_map. reflexivity.
      * intros k x I. apply in_map_iff in I. destruct I as ((k' & n) & E & I). apply pair_equal_spec in E. destruct E as (<- & _). apply numbered_ge in I. cbn [fst]. lia.
    + unfold part_stmts. rewrite Ec, flat_map_concat_map, !map_map, <- flat_map_concat_map. apply renders_map. intros (k & n) I. cbn [fst snd]. destruct (Pw k n I) as (K & P).
      apply part_lines; [exact G|exact K|exact P|]. unfold part_label. rewrite S. unfold icmp_words. cbn [spaced]. rewrite !str_app_assoc. reflexivity.
  - assert (B1 : Zlen (ap_types a) <? 8 = true) by lia. rewrite B1. unfold small_stmt. apply block_words; [|plain|discriminate|].
    + unfold app_name. cbn [join]. rewrite !str_app_assoc. reflexivity.
    + rewrite Ec, flat_map_concat_map, !map_map, <- flat_map_concat_map. apply renders_map. intros (k & n) I. cbn [fst snd]. destruct (Pw k n I) as (K & P).
      apply term_line; [apply label_plain, K|exact P|]. unfold icmp_words, label. cbn [spaced]. rewrite !str_app_assoc. reflexivity.
Qed.
Lemma apps_render l : (forall a, In a l -> app_good a /\ app_content a = true) ->
  renders (flat_map (fun a => if some (ap_types a) then icmp_application a else plain_application a) l ++ flat_map (fun a => if some (ap_types a) then [] else plain_set a) l) (app_stmts l).
Proof.
  intros G. unfold app_stmts. apply renders_app; apply renders_concat_map; intros a I; destruct (G a I) as (Ga & Ca).
  - destruct (some (ap_types a)) eqn:S.
    + apply icmp_render; [exact Ga|]. intros E. rewrite E in S. discriminate S.
    + unfold app_first. rewrite S. apply plain_render; [exact Ga|exact Ca|destruct (ap_types a); [reflexivity|discriminate S]].
  - unfold app_second. destruct (some (ap_types a)) eqn:S; [apply renders_nil|]. apply plain_render; [exact Ga|exact Ca|destruct (ap_types a); [reflexivity|discriminate S]].
Qed.
