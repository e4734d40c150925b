(** Headers of an SRX policy, the whole configuration and its decisions. *)
From Coq Require Import Lia ZifyBool ZifyNat Permutation.
From Verif Require Import SpecSrx BaseFacts TextProofs PyStrFacts PortProofs PolicyProofs GenProofs GenProofs2 CiscoProofs CiscoDup CiscoAcl CiscoGroupAcl JuniperText JuniperProofs JuniperTerm JuniperFilter GceDecide SonicPolicy SrxText SrxRead SrxBook SrxBookText SrxApps SrxTerm SrxPolicy SrxWhole.
Local Open Scope string_scope.
Local Open Scope list_scope.
Local Open Scope Z_scope.

(** ** Options of a header *)
Lemma families_in o : str_in o srx_families = true <-> o = "inet" \/ o = "inet6" \/ o = "mixed".
Proof. rewrite str_in_spec. cbn [In srx_families]. split; [intros [H|[H|[H|[]]]]|intros [H|[H|H]]]; auto. Qed.
Lemma srx_family_found : forall opts found f, found <> "" -> srx_family found opts = Ok f -> f = found /\ forall o, In o opts -> str_in o srx_families = false.
Proof.
  induction opts as [|o opts IH]; intros found f N H; cbn [srx_family] in H.
  - destruct found; [congruence|]. cbn [is_empty] in H. apply ok_inj in H. split; [congruence|intros o []].
  - destruct (str_in o srx_families) eqn:F; [destruct found; [congruence|discriminate H]|]. destruct (str_in o srx_options); [|discriminate H].
    destruct (IH found f N H) as (E & R). split; [exact E|]. intros o' [<-|I]; auto.
Qed.
Lemma srx_family_spec : forall opts f, srx_family "" opts = Ok f ->
  (str_in f srx_families = true /\ In f opts /\ forall o, In o opts -> str_in o srx_families = true -> o = f) \/ (f = "mixed" /\ forall o, In o opts -> str_in o srx_families = false).
Proof.
  induction opts as [|o opts IH]; intros f H; cbn [srx_family] in H.
  - apply ok_inj in H. right. split; [cbn in H; congruence|intros o []].
  - destruct (str_in o srx_families) eqn:F.
    + cbn [is_empty] in H. assert (N : o <> "") by (intros ->; discriminate F). destruct (srx_family_found _ _ _ N H) as (-> & R). left.
      split; [exact F|]. split; [left; reflexivity|]. intros o' [->|I] X; [reflexivity|]. rewrite (R o' I) in X. discriminate X.
    + destruct (str_in o srx_options); [|discriminate H]. destruct (IH f H) as [(A & B & C)|(A & B)].
      * left. split; [exact A|]. split; [right; exact B|]. intros o' [<-|I] X; [congruence|exact (C o' I X)].
      * right. split; [exact A|]. intros o' [<-|I]; auto.
Qed.
Lemma asked_versions extra vs f : asks_families extra vs -> srx_family "" extra = Ok f -> srx_versions f = vs.
Proof.
  intros A H. apply srx_family_spec in H. destruct A as [(I & ->)|[(I & ->)|(I & J & ->)]].
  - destruct H as [(_ & _ & X)|(_ & X)]; [|specialize (X _ I); discriminate X]. rewrite <- (X "inet" I eq_refl). reflexivity.
  - destruct H as [(_ & _ & X)|(_ & X)]; [|specialize (X _ I); discriminate X]. rewrite <- (X "inet6" I eq_refl). reflexivity.
  - destruct H as [(X & Y & _)|(-> & _)]; [|reflexivity]. apply families_in in X. destruct X as [->|[-> | ->]]; [destruct (I Y)|destruct (J Y)|reflexivity].
Qed.
Lemma str_notin s l : str_in s l = false <-> ~ In s l.
Proof. rewrite <- str_in_spec. destruct (str_in s l); split; congruence. Qed.
Lemma srx_config_spec vs h from to extra book terms c : srx_header_ok vs h from to extra -> srx_config book ("from-zone" :: from :: "to-zone" :: to :: extra) terms = Ok c ->
  sc_from c = from /\ sc_to c = to /\ sc_vers c = vs /\ sc_express c = false /\ (sc_global c = true <-> one_book extra) /\ (book = None \/ book = Some (sc_global c)) /\
  (from = "all" <-> to = "all").
Proof.
  intros [Z A X _ _] H. unfold srx_config in H. cbn [String.eqb Ascii.eqb Bool.eqb negb orb] in H.
  destruct (str_in from srx_options || str_in to srx_options); [discriminate H|].
  destruct (negb (String.eqb from "all" && String.eqb to "all") && _); [discriminate H|].
  destruct (str_in "address-book-zone" extra && str_in "address-book-global" extra); [discriminate H|]. cbv zeta in H.
  destruct (match book with Some g => _ | None => false end) eqn:B; [discriminate H|]. destruct (String.eqb from "all" && String.eqb to "all" && _); [discriminate H|].
  destruct (xorb (String.eqb from "all") (String.eqb to "all")) eqn:E; [discriminate H|]. apply bind_ok in H. destruct H as (f & Ef & H). apply ok_inj in H. subst c. cbn.
  split; [reflexivity|]. split; [reflexivity|]. split; [exact (asked_versions _ _ _ A Ef)|]. split; [apply str_notin, X|]. split; [rewrite negb_true_iff; apply str_notin|].
  split.
  - destruct book as [g|]; [right|left; reflexivity]. destruct g, (negb (str_in "address-book-zone" extra)); cbn in B; congruence.
  - rewrite <- !String.eqb_eq. destruct (String.eqb from "all"), (String.eqb to "all"); cbn in E; split; congruence.
Qed.

(** ** All headers *)
Definition has_options (f : srx_header * list term) : bool := match sh_options (fst f) with Some _ => true | None => false end.
Record header_fits (vs : list ver) (N : string -> Prop) (D : string -> string -> ipaddr -> Prop) (today : Z) st (f : srx_header * list term) (x : srx_header * srx_cfg * list srx_policy) : Prop := {
  hf_header : fst (fst x) = fst f;
  hf_asks : exists extra, srx_asks (fst f) (sc_from (snd (fst x))) (sc_to (snd (fst x))) extra /\ srx_header_ok vs (fst f) (sc_from (snd (fst x))) (sc_to (snd (fst x))) extra;
  hf_cfg : cfg_fine vs D (snd (fst x));
  hf_all : sc_from (snd (fst x)) = "all" <-> sc_to (snd (fst x)) = "all";
  hf_blocks : exists blocks, snd x = concat blocks /\ Forall2 (block_fits vs N D today (snd (fst x)) st) (fix_large vs (snd f)) blocks }.
Definition header_fine (vs : list ver) (N : string -> Prop) (D : string -> string -> ipaddr -> Prop) (today : Z) (f : srx_header * list term) : Prop :=
  sh_options (fst f) <> None -> exists from to extra, srx_asks (fst f) from to extra /\ srx_header_ok vs (fst f) from to extra /\
    (forall t, In t (snd f) -> srx_live today t -> term_fine vs N D from to t) /\ (one_book extra -> forall z z' n x, D z n x <-> D z' n x).
Lemma forall2_impl {A B} (R S : A -> B -> Prop) : (forall x y, R x y -> S x y) -> forall l m, Forall2 R l m -> Forall2 S l m.
Proof. intros H l m F. induction F; constructor; auto. Qed.
Lemma fits_header_grows vs N D today st st' f x : grows st st' -> header_fits vs N D today st f x -> header_fits vs N D today st' f x.
Proof.
  intros G [A B C E (blocks & Eb & F)]. constructor; try assumption. exists blocks. split; [exact Eb|]. eapply forall2_impl; [|exact F].
  intros t out [X|(L & O)]; [left; exact X|right; split; [exact L|exact (out_grows _ _ _ _ _ _ _ _ G O)]].
Qed.
Lemma srx_filters_spec vs N D today : forall fs book st book' st' out, (forall f, In f fs -> header_fine vs N D today f) -> state_ok vs N D st ->
  srx_filters today book st fs = Ok (book', st', out) ->
  state_ok vs N D st' /\ grows st st' /\ (forall g, book = Some g -> book' = Some g) /\
  Forall2 (header_fits vs N D today st') (filter has_options fs) out /\ forall x, In x out -> book' = Some (sc_global (snd (fst x))).
Proof.
  induction fs as [|(h, terms) fs IH]; intros book st book' st' out F S H; cbn [srx_filters] in H.
  - apply ok_inj in H. rewrite !pair_equal_spec in H. destruct H as ((<- & <-) & <-). split; [exact S|]. split; [apply grows_refl|]. split; [auto|]. split; [constructor|intros x []].
  - pose proof (F (h, terms) (or_introl eq_refl)) as Fh. unfold header_fine in Fh. cbn [fst snd] in Fh. cbn [filter]. unfold has_options at 1. cbn [fst].
    destruct (sh_options h) as [opts|] eqn:Eo.
    2: { exact (IH _ _ _ _ _ (fun f I => F f (or_intror I)) S H). }
    destruct (Fh ltac:(discriminate)) as (from & to & extra & A & K & T & OB). unfold srx_asks in A. rewrite Eo in A. assert (Eopts : opts = "from-zone" :: from :: "to-zone" :: to :: extra) by congruence. subst opts.
    apply bind_ok in H. destruct H as (c & Ec & H). destruct (srx_config_spec _ _ _ _ _ _ _ _ K Ec) as (C1 & C2 & C3 & C4 & C5 & C6 & C7).
    destruct (srx_terms c today [] st (fix_large (sc_vers c) terms)) as [(st1 & ps)|e] eqn:E1; [|discriminate H]. cbn [bind] in H.
    destruct (srx_filters today (Some (sc_global c)) st1 fs) as [((bk & st2) & more)|e] eqn:E2; [|discriminate H]. cbn [bind] in H.
    apply ok_inj in H. rewrite !pair_equal_spec in H. destruct H as ((<- & <-) & <-).
    assert (Cf : cfg_fine vs D c). { constructor; [exact C3|exact C4|rewrite C1, C2; apply K|intros G; apply OB, C5, G]. }
    rewrite C3 in E1.
    destruct (srx_terms_spec vs N D c today Cf (fix_large vs terms) [] st st1 ps S) as (S1 & G1 & blocks & Eb & Fb).
    { intros u I L. unfold fix_large in I. apply in_flat_map in I. destruct I as (t & It & Iu).
      destruct (large_live vs today t u (fun L' => tf_ok _ _ _ _ _ _ (T t It L')) Iu L) as (-> & _). rewrite C1, C2. exact (T t It L). }
    { exact E1. }
    destruct (IH _ _ _ _ _ (fun f I => F f (or_intror I)) S1 E2) as (S2 & G2 & B2 & F2 & Gl). split; [exact S2|]. split; [exact (grows_trans _ _ _ G1 G2)|].
    split. { intros g Eg. pose proof (B2 _ eq_refl). destruct C6 as [X|X]; congruence. }
    split.
    + constructor; [|exact F2]. apply (fits_header_grows _ _ _ _ st1); [exact G2|]. constructor; cbn [fst snd].
      * reflexivity.
      * exists extra. rewrite C1, C2. split; [unfold srx_asks; rewrite Eo; reflexivity|exact K].
      * exact Cf.
      * rewrite C1, C2. exact C7.
      * exists blocks. split; [exact Eb|exact Fb].
    + intros x [<-|I]; [apply B2; reflexivity|exact (Gl x I)].
Qed.

(** ** The text of a header *)
Definition verdict_word (y : srx_policy) : string := match srx_verdict (hd "" (t_action (sp_term y))) with Some w => w | None => "" end.
Definition pstmt (y : srx_policy) : stmt := policy_stmt y (hd "" (t_action (sp_term y))) (verdict_word y).
Definition policy_good (y : srx_policy) : Prop := policy_words y /\ exists a, t_action (sp_term y) = [a] /\ In a ["accept"; "deny"; "reject"].
Lemma verdict_good y : policy_good y -> exists a, t_action (sp_term y) = [a] /\ srx_verdict a = Some (verdict_word y) /\ In (verdict_word y) srx_outcomes /\ plain_word (verdict_word y) /\
  assoc a srx_actions = Some (verdict_word y) /\ pstmt y = policy_stmt y a (verdict_word y).
Proof.
  intros (_ & a & E & I). exists a. unfold pstmt, verdict_word. rewrite E. cbn [hd]. split; [reflexivity|].
  destruct I as [<-|[<-|[<-|[]]]]; (split; [reflexivity|]; split; [cbn; auto|]; split; [apply plain_lit; reflexivity|]; split; reflexivity).
Qed.
Lemma policies_render verbose ps ls : (forall y, In y ps -> policy_good y) -> mapM (srx_policy_lines verbose) ps = Ok ls -> renders (concat ls) (map pstmt ps).
Proof.
  intros G H. apply mapM_forall2 in H. induction H as [|y l ps ls E F IH]; [apply renders_nil|]. cbn [concat map]. apply (renders_app _ _ [pstmt y]); [|apply IH; intros z I; apply G; right; exact I].
  destruct (verdict_good y (G y (or_introl eq_refl))) as (a & Ea & _ & _ & Pw & Aw & ->). exact (policy_render verbose y a _ l (proj1 (G y (or_introl eq_refl))) Ea Aw Pw E).
Qed.
Definition header_words (c : srx_cfg) : list string :=
  if String.eqb (sc_from c) "all" && String.eqb (sc_to c) "all" then ["global"] else ["from-zone"; sc_from c; "to-zone"; sc_to c].
Definition group_leaves (h : srx_header) : list stmt := opt_list "apply-groups" (sh_groups h) (sh_groups h) ++ opt_list "apply-groups-except" (sh_groups_except h) (sh_groups_except h).
Definition header_stmt (x : srx_header * srx_cfg * list srx_policy) : stmt :=
  Block (header_words (snd (fst x))) (group_leaves (fst (fst x)) ++ map pstmt (snd x)).
Record header_good (x : srx_header * srx_cfg * list srx_policy) : Prop := {
  hg_zones : plain_word (sc_from (snd (fst x))) /\ plain_word (sc_to (snd (fst x)));
  hg_comments : quiet_comments (sh_comment (fst (fst x)));
  hg_groups : plain_words (sh_groups (fst (fst x)) ++ sh_groups_except (fst (fst x)));
  hg_policies : forall y, In y (snd x) -> policy_good y }.
Lemma header_render x lines : header_good x -> srx_header_lines x = Ok lines -> renders lines [header_stmt x].
Proof.
  destruct x as ((h, c), ps). intros [(Zf & Zt) Qc Pg Gp] H. cbn [fst snd] in *. unfold srx_header_lines in H. apply bind_ok in H. destruct H as (policies & Ep & H). apply ok_inj in H. subst lines.
  assert (P1 : plain_words (sh_groups h)) by (intros s I; apply Pg, in_or_app; auto). assert (P2 : plain_words (sh_groups_except h)) by (intros s I; apply Pg, in_or_app; auto).
  assert (Body : renders ((if some (sh_groups h) then [srx_line 3 (srx_list "apply-groups" (sh_groups h))] else [])
      ++ (if some (sh_groups_except h) then [srx_line 3 (srx_list "apply-groups-except" (sh_groups_except h))] else []) ++ concat policies) (group_leaves h ++ map pstmt ps)).
  { unfold group_leaves. rewrite <- app_assoc. apply renders_app; [apply opt_render; [apply plain_lit; reflexivity|exact P1|auto]|].
    apply renders_app; [apply opt_render; [apply plain_lit; reflexivity|exact P2|auto]|]. exact (policies_render _ _ _ Gp Ep). }
  apply (renders_app _ _ []).
  - destruct (sc_verbose c); [|apply renders_nil]. apply srx_comment_block, wrap_quiet, Qc.
  - unfold header_stmt, header_words. cbn [fst snd]. match type of Body with renders ?B _ => set (body := B) in Body end.
    match goal with |- renders ([?L] ++ ?R) _ => replace ([L] ++ R) with ([L] ++ body ++ [srx_line 2 "}"]) by (unfold body; rewrite <- !app_assoc; reflexivity) end.
    clearbody body. destruct (String.eqb (sc_from c) "all" && String.eqb (sc_to c) "all").
    + apply block_words; [reflexivity|plain|discriminate|exact Body].
    + apply block_words; [|plain|discriminate|exact Body]. cbn [join]. rewrite !str_app_assoc. reflexivity.
Qed.
Lemma leaf_ok ws : plain_words ws -> stmt_ok (Leaf ws) = true.
Proof. intros P. cbn [stmt_ok]. apply plain_oks, P. Qed.
Lemma block_ok ws body : plain_words ws -> (forall s, In s body -> stmt_ok s = true) -> stmt_ok (Block ws body) = true.
Proof. intros P H. cbn [stmt_ok]. apply andb_true_iff. split; [apply plain_oks, P|]. apply forallb_forall, H. Qed.
Lemma header_ok x : header_good x -> stmt_ok (header_stmt x) = true.
Proof.
  destruct x as ((h, c), ps). intros [(Zf & Zt) Qc Pg Gp]. cbn [fst snd] in *. unfold header_stmt. cbn [fst snd].
  apply block_ok; [unfold header_words; destruct (String.eqb (sc_from c) "all" && String.eqb (sc_to c) "all"); plain|].
  apply forallb_forall. unfold group_leaves. rewrite !forallb_app, !opt_list_ok;
    try (first [apply plain_lit; reflexivity|intros s I; apply Pg, in_or_app; auto]).
  cbn [andb]. apply forallb_forall. intros s I. apply in_map_iff in I. destruct I as (y & <- & I). destruct (verdict_good y (Gp y I)) as (a & _ & _ & _ & Pw & _ & ->).
  apply policy_stmt_ok; [apply Gp, I|exact Pw].
Qed.

(** ** Applications *)
Lemma apps_ok l : (forall a, In a l -> app_good a) -> forall s, In s (app_stmts l) -> stmt_ok s = true.
Proof.
  intros G s I. unfold app_stmts in I. apply in_app_or in I.
  assert (T : forall a k ws n, In a l -> In (k, ws) (numbered 1 (conds a)) -> plain_word n -> stmt_ok (term_stmt n ws) = true).
  { intros a k ws n Ia Ik Pn. unfold term_stmt. apply leaf_ok. pose proof (conds_plain a ws (G a Ia) (proj2 (conds_in a ws) (ex_intro _ k Ik))) as Pw. apply plain_cons; [apply plain_lit; reflexivity|]. apply plain_cons; [exact Pn|exact Pw]. }
  assert (Sm : forall a, In a l -> stmt_ok (small_stmt a) = true).
  { intros a Ia. unfold small_stmt. pose proof (app_plain a (G a Ia)). apply block_ok; [plain|]. intros s' J. apply in_map_iff in J. destruct J as ((k & ws) & <- & J). cbn [fst snd].
    apply (T a k ws _ Ia J). apply label_plain. pose proof (numbered_ge _ _ _ _ J). lia. }
  assert (Pa : forall a, In a l -> forall s', In s' (part_stmts a) -> stmt_ok s' = true).
  { intros a Ia s' J. unfold part_stmts in J. apply in_map_iff in J. destruct J as ((k & ws) & <- & J). cbn [fst snd]. pose proof (numbered_ge _ _ _ _ J) as K.
    pose proof (part_plain a k (G a Ia) ltac:(lia)). apply block_ok; [plain|]. intros s' [<-|[]]. apply (T a k ws _ Ia J). apply part_label_plain. lia. }
  assert (Se : forall a, In a l -> stmt_ok (set_of a) = true).
  { intros a Ia. unfold set_of. pose proof (app_plain a (G a Ia)). apply block_ok; [plain|]. intros s' J. apply in_map_iff in J. destruct J as ((k & ws) & <- & J). cbn [fst snd].
    pose proof (numbered_ge _ _ _ _ J) as K. pose proof (part_plain a k (G a Ia) ltac:(lia)). apply leaf_ok. plain. }
  destruct I as [I|I]; apply in_flat_map in I; destruct I as (a & Ia & I).
  - unfold app_first in I. destruct (some (ap_types a)); [|apply (Pa a Ia _ I)]. destruct (small a); [destruct I as [<-|[]]; apply Sm, Ia|]. destruct I as [<-|I]; [apply Se, Ia|apply (Pa a Ia _ I)].
  - unfold app_second in I. destruct (some (ap_types a)); [destruct I|]. destruct I as [<-|[]]. apply Se, Ia.
Qed.
Definition kept_apps (apps : list srx_app) : list srx_app := filter app_content (py_sorted (fun x y => str_leb (ap_name x) (ap_name y)) apps).
Lemma kept_in apps a : In a (kept_apps apps) <-> In a apps /\ app_content a = true.
Proof.
  unfold kept_apps. rewrite filter_In. split; intros (I & C); (split; [|exact C]); [apply (Permutation_in _ (py_sorted_perm _ _)) in I; exact I|apply (Permutation_in _ (Permutation_sym (py_sorted_perm _ _))), I].
Qed.
Lemma nodup_filter_map {A B} (f : A -> B) keep l : NoDup (map f l) -> NoDup (map f (filter keep l)).
Proof.
  induction l as [|x l IH]; cbn [map filter]; intros H; [constructor|]. inversion H as [|? ? Nx Nl]; subst. destruct (keep x); cbn [map]; [|apply IH, Nl]. constructor; [|apply IH, Nl].
  intros I. apply Nx. apply in_map_iff in I. destruct I as (y & E & I). apply filter_In in I. apply in_map_iff. exists y. tauto.
Qed.
Lemma kept_names apps : NoDup (map ap_name apps) -> NoDup (map ap_name (kept_apps apps)).
Proof. intros D. apply nodup_filter_map. eapply Permutation_NoDup; [|exact D]. apply Permutation_map, Permutation_sym, py_sorted_perm. Qed.
Definition apps_stmts (apps : list srx_app) : list stmt :=
  if some (kept_apps apps) then [Block ["replace:"; "applications"] (app_stmts (kept_apps apps))] else [Leaf ["delete:"; "applications"]].
Lemma line_zero s : srx_line 0 s = s. Proof. reflexivity. Qed.
Lemma blank_line : renders [""] [].
Proof. intros rest. change (cat [""] rest) with (String newline rest). apply tok_ws. reflexivity. Qed.
Lemma applications_render apps : (forall a, In a apps -> app_good a) -> renders (srx_applications apps) (apps_stmts apps).
Proof.
  intros G. unfold srx_applications, apps_stmts. fold (kept_apps apps). destruct (some (kept_apps apps)).
  - match goal with |- renders (?H ++ ?A ++ ?B ++ _) ?S => replace (H ++ A ++ B ++ ["}"; ""]) with (([srx_line 0 "replace: applications {"] ++ (A ++ B) ++ [srx_line 0 "}"]) ++ [""]) by (rewrite <- !app_assoc; reflexivity);
      rewrite <- (app_nil_r S) end.
    apply renders_app; [|apply blank_line]. apply block_words; [reflexivity|plain|discriminate|]. apply apps_render. intros a I. apply kept_in in I. destruct I. auto.
  - change "delete: applications;" with (srx_line 0 "delete: applications;"). apply leaf_words; [reflexivity|plain|discriminate].
Qed.
Lemma applications_ok apps : (forall a, In a apps -> app_good a) -> forallb stmt_ok (apps_stmts apps) = true.
Proof.
  intros G. unfold apps_stmts. destruct (some (kept_apps apps)); [|reflexivity]. cbn [forallb]. rewrite andb_true_r. apply block_ok; [plain|]. apply apps_ok. intros a I. apply kept_in in I. apply G, I.
Qed.
Lemma empty_conds a p : app_content a = false -> exists ws, In ws (conds a) /\ app_conditions p ws.
Proof.
  unfold app_content. rewrite !orb_false_iff. intros (((A & B) & C) & E). apply some_nil in A, B, C, E. exists []. split; [|exact Logic.I].
  unfold conds, combos. rewrite A, B, C, E. left. reflexivity.
Qed.

(** ** What is kept of the terms in the policies *)
Lemma block_policies vs N D today c st ts blocks y : Forall2 (block_fits vs N D today c st) ts blocks -> In y (concat blocks) -> exists t, In t ts /\ srx_live today t /\ fits vs N D c st t y.
Proof.
  intros F. induction F as [|t b ts blocks H F IH]; cbn [concat]; intros I; [destruct I|]. apply in_app_or in I. destruct I as [I|I].
  - destruct H as [(_ & ->)|(L & [(-> & _)|(z & -> & Fy)])]; [destruct I|destruct I|]. destruct I as [<-|[]]. exists t. split; [left; reflexivity|auto].
  - destruct (IH I) as (u & Iu & R). exists u. split; [right; exact Iu|exact R].
Qed.
Lemma fits_same vs N D c st t y : fits vs N D c st t y ->
  t_name (sp_term y) = t_name t /\ t_action (sp_term y) = t_action t /\ t_dscp_match (sp_term y) = t_dscp_match t /\ t_dscp_except (sp_term y) = t_dscp_except t /\
  t_source_zone (sp_term y) = t_source_zone t /\ t_destination_zone (sp_term y) = t_destination_zone t /\ term_comments (sp_term y) = term_comments t.
Proof. intros [(src & dst & E) _ _ _]. rewrite E. destruct t. cbn. auto 10. Qed.
Lemma fits_good vs (N : string -> Prop) D c st t y : (forall n, N n -> proper_name n) -> state_ok vs N D st -> srx_term_ok vs t -> fits vs N D c st t y -> policy_good y.
Proof.
  intros Np S K F. destruct (fits_same _ _ _ _ _ _ _ F) as (E1 & E2 & E3 & E4 & E5 & E6 & E7). split.
  - constructor; rewrite ?E1, ?E3, ?E4, ?E5, ?E6, ?E7.
    + apply K.
    + destruct (ft_app _ _ _ _ _ _ _ F) as (a & I & <- & _). apply (ag_name _ (st_good _ _ _ _ S a I)).
    + intros n I. apply Np, (proj1 (ft_src _ _ _ _ _ _ _ F) n I).
    + intros n I. apply Np, (proj1 (ft_dst _ _ _ _ _ _ _ F) n I).
    + apply K.
    + apply K.
  - rewrite E2. apply K.
Qed.

(** ** The whole configuration *)
Definition srx_conf (book : stmt) (out : list (srx_header * srx_cfg * list srx_policy)) (apps : list srx_app) : list stmt :=
  Block ["security"] [book; policies_stmt (map header_stmt out)] :: apps_stmts apps.
Lemma headers_render out ls : (forall x, In x out -> header_good x) -> mapM srx_header_lines out = Ok ls -> renders (concat ls) (map header_stmt out).
Proof.
  intros G H. apply mapM_forall2 in H. induction H as [|x l out ls E F IH]; [apply renders_nil|]. cbn [concat map]. apply (renders_app _ _ [header_stmt x]); [|apply IH; intros z I; apply G; right; exact I].
  apply header_render; [apply G; left; reflexivity|exact E].
Qed.
Lemma tags_quiet : renders ([srx_line 1 "/*"] ++ add_repository_tags (spaces 4) true true true false ++ [srx_line 1 "*/"]) [].
Proof.
  pose (ls := add_repository_tags "" true true true false).
  change (add_repository_tags (spaces 4) true true true false) with (map (srx_line 1) ls). apply srx_comment_block. unfold ls. apply Forall_forall. intros s I.
  cbn in I. repeat (destruct I as [<-|I]; [apply quiet_b; reflexivity|]). destruct I.
Qed.
Lemma conf_reads ab book out policies apps : renders ab [book] -> stmt_ok book = true -> (forall x, In x out -> header_good x) -> mapM srx_header_lines out = Ok policies ->
  (forall a, In a apps -> app_good a) ->
  statements (["security {"] ++ ab ++ [srx_line 1 "/*"] ++ add_repository_tags (spaces 4) true true true false ++ [srx_line 1 "*/"; srx_line 1 "replace: policies {"]
      ++ concat policies ++ [srx_line 1 "}"; "}"] ++ srx_applications apps) = Some (srx_conf book out apps).
Proof.
  intros R O G H A. 
  assert (W : renders (["security {"] ++ ab ++ [srx_line 1 "/*"] ++ add_repository_tags (spaces 4) true true true false ++ [srx_line 1 "*/"; srx_line 1 "replace: policies {"]
      ++ concat policies ++ [srx_line 1 "}"; "}"] ++ srx_applications apps) (srx_conf book out apps)).
  { match goal with |- renders ?L _ => replace L with (([srx_line 0 "security {"] ++ (ab ++ ([srx_line 1 "/*"] ++ add_repository_tags (spaces 4) true true true false ++ [srx_line 1 "*/"])
        ++ ([srx_line 1 "replace: policies {"] ++ concat policies ++ [srx_line 1 "}"])) ++ [srx_line 0 "}"]) ++ srx_applications apps) end.
    - unfold srx_conf. apply (renders_app _ _ [_]); [|apply applications_render, A]. apply block_words; [reflexivity|plain|discriminate|].
      apply (renders_app _ _ [book]); [exact R|]. apply (renders_app _ _ []); [apply tags_quiet|]. apply block_words; [reflexivity|plain|discriminate|]. exact (headers_render _ _ G H).
    - rewrite <- !app_assoc. reflexivity. }
  unfold statements. match goal with |- context [text_of ?L] => change (text_of L) with (cat L ""); rewrite (W "") end. rewrite read_stmts; [change (read (tokens false "" "") [] (rev (srx_conf book out apps) ++ []) []) with (Some (rev (rev (srx_conf book out apps) ++ []))); rewrite app_nil_r, rev_involutive; reflexivity|].
  unfold srx_conf. cbn [forallb]. rewrite (applications_ok apps A), andb_true_r. apply block_ok; [plain|]. intros s [<-|[<-|[]]]; [exact O|]. apply block_ok; [plain|].
  intros s I. apply in_map_iff in I. destruct I as (x & <- & I). apply header_ok, G, I.
Qed.

(** ** Its decisions *)
Definition between_zones (from to : string) (x : srx_header * srx_cfg * list srx_policy) : bool := String.eqb (sc_from (snd (fst x))) from && String.eqb (sc_to (snd (fst x))) to.
Lemma same_words_zones c from to : (sc_from c = "all" <-> sc_to c = "all") -> (from = "all" <-> to = "all") ->
  header_words c = (if String.eqb from "all" && String.eqb to "all" then ["global"] else ["from-zone"; from; "to-zone"; to]) <-> sc_from c = from /\ sc_to c = to.
Proof.
  intros A B. unfold header_words. split; [|intros (-> & ->); reflexivity].
  destruct (String.eqb (sc_from c) "all" && String.eqb (sc_to c) "all") eqn:E1, (String.eqb from "all" && String.eqb to "all") eqn:E2; intros H; try discriminate H.
  - apply andb_true_iff in E1, E2. rewrite !String.eqb_eq in E1, E2. destruct E1, E2. split; congruence.
  - split; congruence.
Qed.
Lemma within_headers ws from to out : (forall x, In x out -> (header_words (snd (fst x)) = ws <-> sc_from (snd (fst x)) = from /\ sc_to (snd (fst x)) = to)) ->
  within ws (map header_stmt out) = flat_map (fun x => group_leaves (fst (fst x)) ++ map pstmt (snd x)) (filter (between_zones from to) out).
Proof.
  induction out as [|x out IH]; intros H; [reflexivity|]. cbn [map filter]. change (header_stmt x :: map header_stmt out) with ([header_stmt x] ++ map header_stmt out).
  rewrite within_app, (IH (fun y I => H y (or_intror I))). unfold header_stmt at 1. rewrite within_one. specialize (H x (or_introl eq_refl)).
  unfold between_zones at 2. destruct (list_eq_dec string_dec (header_words (snd (fst x))) ws) as [E|E].
  - apply H in E. destruct E as (-> & ->). rewrite !String.eqb_refl. reflexivity.
  - destruct (String.eqb _ from && String.eqb _ to) eqn:X; [|reflexivity]. exfalso. apply E, H. apply andb_true_iff in X. rewrite !String.eqb_eq in X. exact X.
Qed.
Definition is_block (s : stmt) : bool := match s with Block _ _ => true | Leaf _ => false end.
Lemma leaves_out (x : srx_header * srx_cfg * list srx_policy) : filter is_block (group_leaves (fst (fst x)) ++ map pstmt (snd x)) = map pstmt (snd x).
Proof.
  rewrite filter_app. assert (A : filter is_block (group_leaves (fst (fst x))) = []).
  { unfold group_leaves, opt_list. destruct (some (sh_groups _)), (some (sh_groups_except _)); reflexivity. }
  rewrite A. cbn [app]. induction (snd x) as [|y l IH]; [reflexivity|]. cbn [map filter]. change (is_block (pstmt y)) with true. rewrite IH. reflexivity.
Qed.
Lemma filter_flat {A B} (f : A -> list B) keep l : filter keep (flat_map f l) = flat_map (fun x => filter keep (f x)) l.
Proof. induction l as [|x l IH]; [reflexivity|]. cbn [flat_map]. rewrite filter_app, IH. reflexivity. Qed.
Lemma asked_zones vs N D today st from to : forall fs out, Forall2 (header_fits vs N D today st) (filter has_options fs) out ->
  Forall2 (header_fits vs N D today st) (filter (asks_for from to) fs) (filter (between_zones from to) out).
Proof.
  induction fs as [|f fs IH]; intros out F; cbn [filter] in *.
  - inversion F; subst. constructor.
  - unfold has_options in F. unfold asks_for. destruct (sh_options (fst f)) as [opts|] eqn:Eo; [|exact (IH out F)]. inversion F as [|? x ? out' Fx F' Ef Ex]; subst. cbn [filter].
    destruct (hf_asks _ _ _ _ _ _ _ Fx) as (extra & A & _). unfold srx_asks in A. rewrite Eo in A. assert (E : opts = "from-zone" :: sc_from (snd (fst x)) :: "to-zone" :: sc_to (snd (fst x)) :: extra) by congruence. rewrite E.
    unfold between_zones at 1. destruct (String.eqb (sc_from (snd (fst x))) from && String.eqb (sc_to (snd (fst x))) to); [constructor; [exact Fx|]|]; exact (IH out' F').
Qed.
Lemma flat_forall2 {A B C E} (P : A -> C -> Prop) (R : B -> E -> Prop) (f : A -> list B) (g : C -> list E) l m :
  Forall2 P l m -> (forall x y, In x l -> In y m -> P x y -> Forall2 R (f x) (g y)) -> Forall2 R (flat_map f l) (flat_map g m).
Proof.
  intros F. induction F as [|x y l m H F IH]; intros K; [constructor|]. cbn [flat_map]. apply Forall2_app; [apply K; [left; reflexivity|left; reflexivity|exact H]|].
  apply IH. intros a b I J. apply K; right; assumption.
Qed.

Lemma policy_exact vs (N : string -> Prop) D st c t y book rest apps from to today p o :
  (forall n, N n -> proper_name n) -> state_ok vs N D st -> srx_term_ok vs t -> srx_live today t -> fits vs N D c st t y -> sc_from c = from -> sc_to c = to ->
  book_right vs D (fst st) book -> apps = snd st -> in_families vs (p_src p) -> in_families vs (p_dst p) ->
  (term_matches t p <-> side_matches (t_source_address t) (t_source_address_exclude t) (p_src p) /\
    side_matches (t_destination_address t) (t_destination_address_exclude t) (p_dst p) /\ service_matches t p /\ rest_matches t p) ->
  policy_says (Block ["security"] [book; policies_stmt rest] :: apps_stmts apps) from to p (pstmt y) o <-> srx_rule today p t o.
Proof.
  intros Np S K L F Ef Et B Ea Fs Fd M. destruct (verdict_good y (fits_good _ _ _ _ _ _ _ Np S K F)) as (a & A1 & A2 & A3 & _ & _ & ->).
  destruct (fits_same _ _ _ _ _ _ _ F) as (E1 & E2 & E3 & E4 & E5 & E6 & E7). destruct F as [_ (Fs1 & Fs2) (Fd1 & Fd2) (ap & Ia & En & Ec & Es)].
  set (conf := Block ["security"] [book; policies_stmt rest] :: apps_stmts apps).
  assert (Sec : within ["security"] conf = [book; policies_stmt rest]).
  { unfold conf, apps_stmts. destruct (some (kept_apps apps)); reflexivity. }
  assert (Bk : forall z, book_of conf z = book_in [book; policies_stmt rest] z) by (intros z; unfold book_of, book_in; rewrite Sec; reflexivity).
  assert (Ap : within ["replace:"; "applications"] conf = if some (kept_apps apps) then app_stmts (kept_apps apps) else []).
  { unfold conf, apps_stmts. destruct (some (kept_apps apps)); [|reflexivity]. change (app_stmts (kept_apps apps) ++ [] = app_stmts (kept_apps apps)). apply app_nil_r. }
  assert (Nm : forall z n x, In n (map nptoken (t_source_address (sp_term y))) -> z = sc_from c -> in_families vs x -> name_says (book_of conf z) n x <-> D z n x).
  { intros z n x I -> Fx. rewrite Bk. destruct (book_entry (fst st) (sc_from c) n) as [l|] eqn:El; [exact (proj2 B rest _ _ _ _ El Fx)|]. destruct (proj2 (Fs1 n I) El). }
  assert (Nd : forall z n x, In n (map nptoken (t_destination_address (sp_term y))) -> z = sc_to c -> in_families vs x -> name_says (book_of conf z) n x <-> D z n x).
  { intros z n x I -> Fx. rewrite Bk. destruct (book_entry (fst st) (sc_to c) n) as [l|] eqn:El; [exact (proj2 B rest _ _ _ _ El Fx)|]. destruct (proj2 (Fd1 n I) El). }
  rewrite (policy_means conf from to p y a (verdict_word y) o (fun n => D from n (p_src p)) (fun n => D to n (p_dst p)) (service_matches t p)).
  - rewrite <- Ef, <- Et, (Fs2 _ Fs), (Fd2 _ Fd). unfold srx_rule. rewrite M. unfold rest_matches. rewrite E3, E4, E5, E6.
    split.
    + intros (X1 & X2 & X3 & X4 & ->). split; [exact L|]. split; [auto|]. exists a. split; [congruence|exact A2].
    + intros (_ & (X1 & X2 & X3 & X4) & a' & X5 & X6). split; [exact X1|]. split; [exact X2|]. split; [exact X3|]. split; [exact X4|]. assert (a' = a) by congruence. subst a'. congruence.
  - intros I. destruct (Np _ (proj1 (Fs1 _ I))) as (_ & X). apply X. reflexivity.
  - intros I. destruct (Np _ (proj1 (Fd1 _ I))) as (_ & X). apply X. reflexivity.
  - intros n I. apply Nm; [exact I|auto|exact Fs].
  - intros n I. apply Nd; [exact I|auto|exact Fd].
  - rewrite <- Es. rewrite <- Ec, <- En. destruct (app_content ap) eqn:C.
    + fold (app_name ap). assert (Ik : In ap (kept_apps apps)) by (rewrite Ea; apply kept_in; auto). unfold app_says. rewrite Ap.
      assert (So : some (kept_apps apps) = true) by (destruct (kept_apps apps); [destruct Ik|reflexivity]). rewrite So.
      apply app_text_says; [exact Ik|]. rewrite Ea. apply kept_names, (st_names _ _ _ _ S).
    + split; [intros _; apply empty_conds, C|intros _; left; reflexivity].
  - exact A3.
Qed.
(** ** Names of policies *)
Definition pname (y : srx_policy) : string := t_name (sp_term y).
Lemma srx_term_name c st t st' out : srx_term c st t = Ok (st', out) -> out = [] \/ exists y, out = [y] /\ pname y = t_name t.
Proof.
  intros H. destruct st as (book, apps). unfold srx_term in H. apply bind_ok in H. destruct H as (src & _ & H). apply bind_ok in H. destruct H as (dst & _ & H). cbv zeta in H.
  destruct (srx_valid (sc_vers c) _) as [src'|]; [|apply ok_inj in H; apply pair_equal_spec in H; left; symmetry; apply H].
  destruct (srx_valid (sc_vers c) _) as [dst'|]; [|apply ok_inj in H; apply pair_equal_spec in H; left; symmetry; apply H].
  apply bind_ok in H. destruct H as (ps & _ & H). apply bind_ok in H. destruct H as (new & _ & H). apply bind_ok in H. destruct H as (known & _ & H).
  right. destruct known; apply ok_inj in H; apply pair_equal_spec in H; destruct H as (_ & <-); eexists; (split; [reflexivity|reflexivity]).
Qed.
Lemma srx_terms_names c today : forall terms seen st st' ps, srx_terms c today seen st terms = Ok (st', ps) -> NoDup (map pname ps) /\ forall n, In n (map pname ps) -> ~ In n seen.
Proof.
  induction terms as [|t terms IH]; intros seen st st' ps H; cbn [srx_terms] in H.
  - apply ok_inj in H. apply pair_equal_spec in H. destruct H as (_ & <-). split; [constructor|intros n []].
  - destruct (srx_skipped t); [exact (IH _ _ _ _ H)|]. apply bind_ok in H. destruct H as (n & _ & H). destruct (str_in n seen) eqn:Sn; [discriminate H|]. apply str_notin in Sn.
    destruct (expired today t). { destruct (IH _ _ _ _ H) as (A & B). split; [exact A|]. intros m I J. apply (B m I). right. exact J. }
    destruct (srx_term c st (set_name n t)) as [(st1 & one)|e] eqn:E1; [|discriminate H]. cbn [bind] in H.
    destruct (srx_terms c today (n :: seen) st1 terms) as [(st2 & more)|e] eqn:E2; [|discriminate H]. cbn [bind] in H. apply ok_inj in H. apply pair_equal_spec in H. destruct H as (_ & <-).
    destruct (IH _ _ _ _ E2) as (A & B). destruct (srx_term_name _ _ _ _ _ E1) as [->|(y & -> & Ey)]; cbn [app map].
    + split; [exact A|]. intros m I J. apply (B m I). right. exact J.
    + assert (En : pname y = n) by (rewrite Ey; destruct t; reflexivity). rewrite En. split.
      * constructor; [|exact A]. intros I. apply (B n I). left. reflexivity.
      * intros m [<-|I]; [exact Sn|]. intros J. apply (B m I). right. exact J.
Qed.
Lemma srx_filters_names today : forall fs book st book' st' out, srx_filters today book st fs = Ok (book', st', out) -> forall x, In x out -> NoDup (map pname (snd x)).
Proof.
  induction fs as [|(h, terms) fs IH]; intros book st book' st' out H x I; cbn [srx_filters] in H.
  - apply ok_inj in H. rewrite !pair_equal_spec in H. destruct H as (_ & <-). destruct I.
  - destruct (sh_options h) as [opts|]; [|exact (IH _ _ _ _ _ H x I)]. apply bind_ok in H. destruct H as (c & _ & H).
    destruct (srx_terms c today [] st (fix_large (sc_vers c) terms)) as [(st1 & ps)|e] eqn:E1; [|discriminate H]. cbn [bind] in H.
    destruct (srx_filters today (Some (sc_global c)) st1 fs) as [(z & more)|e] eqn:E2; [|discriminate H]. cbn [bind] in H.
    apply ok_inj in H. rewrite !pair_equal_spec in H. destruct H as (-> & <-). destruct I as [<-|I]; [exact (proj1 (srx_terms_names _ _ _ _ _ _ _ E1))|exact (IH _ _ _ _ _ E2 x I)].
Qed.
Lemma names_app a b : policy_names (a ++ b) = policy_names a ++ policy_names b.
Proof. apply flat_map_app. Qed.
Lemma names_flat {A} (f : A -> list stmt) l : policy_names (flat_map f l) = flat_map (fun x => policy_names (f x)) l.
Proof. induction l as [|x l IH]; [reflexivity|]. cbn [flat_map]. rewrite names_app, IH. reflexivity. Qed.
Lemma header_names (x : srx_header * srx_cfg * list srx_policy) : policy_names (group_leaves (fst (fst x)) ++ map pstmt (snd x)) = map pname (snd x).
Proof.
  rewrite names_app. assert (A : policy_names (group_leaves (fst (fst x))) = []).
  { unfold group_leaves, opt_list. destruct (some (sh_groups _)), (some (sh_groups_except _)); reflexivity. }
  rewrite A. cbn [app]. induction (snd x) as [|y l IH]; [reflexivity|]. cbn [map]. change (pstmt y :: map pstmt l) with ([pstmt y] ++ map pstmt l). rewrite names_app, IH. reflexivity.
Qed.
Lemma nodup_apart {A} (a b : list A) : NoDup a -> NoDup b -> (forall x, In x a -> ~ In x b) -> NoDup (a ++ b).
Proof.
  intros D. induction D as [|x a Nx D IH]; intros B H; [exact B|]. cbn [app]. constructor; [|apply IH; [exact B|intros y I; apply H; right; exact I]].
  intros I. apply in_app_or in I. destruct I as [I|I]; [exact (Nx I)|exact (H x (or_introl eq_refl) I)].
Qed.
Lemma zone_names vs N D today st from to : forall fs out, Forall2 (header_fits vs N D today st) (filter has_options fs) out ->
  (forall f t, In f fs -> sh_options (fst f) <> None -> In t (snd f) -> srx_live today t -> srx_term_ok vs t) ->
  (forall a f b f' c t t', fs = a ++ f :: b ++ f' :: c -> asks_for from to f = true -> asks_for from to f' = true ->
    In t (snd f) -> In t' (snd f') -> srx_live today t -> srx_live today t' -> t_name t <> t_name t') ->
  (forall x, In x out -> NoDup (map pname (snd x))) ->
  NoDup (flat_map (fun x => map pname (snd x)) (filter (between_zones from to) out)) /\
  forall n, In n (flat_map (fun x => map pname (snd x)) (filter (between_zones from to) out)) -> exists f t, In f fs /\ asks_for from to f = true /\ In t (snd f) /\ srx_live today t /\ t_name t = n.
Proof.
  induction fs as [|f fs IH]; intros out F Ok Ap Nd; cbn [filter] in *.
  - inversion F; subst. split; [constructor|intros n []].
  - assert (Ok' : forall f t, In f fs -> sh_options (fst f) <> None -> In t (snd f) -> srx_live today t -> srx_term_ok vs t) by (intros g t I; apply Ok; right; exact I).
    assert (Ap' : forall a g b g' c t t', fs = a ++ g :: b ++ g' :: c -> asks_for from to g = true -> asks_for from to g' = true ->
      In t (snd g) -> In t' (snd g') -> srx_live today t -> srx_live today t' -> t_name t <> t_name t') by (intros a g b g' c t t' E; apply (Ap (f :: a) g b g' c t t'); rewrite E; reflexivity).
    assert (Skip : forall out, NoDup (flat_map (fun x => map pname (snd x)) (filter (between_zones from to) out)) /\
      (forall n, In n (flat_map (fun x => map pname (snd x)) (filter (between_zones from to) out)) -> exists f t, In f fs /\ asks_for from to f = true /\ In t (snd f) /\ srx_live today t /\ t_name t = n) ->
      NoDup (flat_map (fun x => map pname (snd x)) (filter (between_zones from to) out)) /\
      (forall n, In n (flat_map (fun x => map pname (snd x)) (filter (between_zones from to) out)) -> exists f0 t, In f0 (f :: fs) /\ asks_for from to f0 = true /\ In t (snd f0) /\ srx_live today t /\ t_name t = n)).
    { intros out0 (A & B). split; [exact A|]. intros n I. destruct (B n I) as (g & t & Ig & R). exists g, t. split; [right; exact Ig|exact R]. }
    unfold has_options in F. destruct (sh_options (fst f)) as [opts|] eqn:Eo; [|apply Skip, IH; assumption]. inversion F as [|? x ? out' Fx F' Ef Ex]; subst.
    specialize (IH out' F' Ok' Ap' (fun y I => Nd y (or_intror I))). cbn [filter].
    destruct (between_zones from to x) eqn:Bz; [|apply Skip; exact IH]. cbn [flat_map].
    assert (Af : asks_for from to f = true).
    { destruct (hf_asks _ _ _ _ _ _ _ Fx) as (extra & A & _). unfold srx_asks in A. unfold asks_for. rewrite A. exact Bz. }
    assert (Mine : forall n, In n (map pname (snd x)) -> exists t, In t (snd f) /\ srx_live today t /\ t_name t = n).
    { intros n I. apply in_map_iff in I. destruct I as (y & <- & I). destruct (hf_blocks _ _ _ _ _ _ _ Fx) as (blocks & Eq & Fb). rewrite Eq in I.
      destruct (block_policies _ _ _ _ _ _ _ _ _ Fb I) as (u & Iu & Lu & Fu). unfold fix_large in Iu. apply in_flat_map in Iu. destruct Iu as (t & It & Iu).
      destruct (large_live vs today t u (fun L => Ok f t (or_introl eq_refl) ltac:(rewrite Eo; discriminate) It L) Iu Lu) as (-> & _). exists t. split; [exact It|]. split; [exact Lu|].
      symmetry. exact (proj1 (fits_same _ _ _ _ _ _ _ Fu)). }
    destruct IH as (IH1 & IH2). split.
    + apply nodup_apart; [apply Nd; left; reflexivity|exact IH1|]. intros n I J. destruct (Mine n I) as (t & It & Lt & Et). destruct (IH2 n J) as (g & t' & Ig & Ag & It' & Lt' & Et').
      destruct (in_split g fs Ig) as (b & c & ->). apply (Ap [] f b g c t t' eq_refl Af Ag It It' Lt Lt'). congruence.
    + intros n I. apply in_app_or in I. destruct I as [I|I].
      * destruct (Mine n I) as (t & It & Lt & Et). exists f, t. split; [left; reflexivity|auto].
      * destruct (IH2 n I) as (g & t & Ig & R). exists g, t. split; [right; exact Ig|exact R].
Qed.
Theorem srx_decides_exact today vs D fs lines : srx_policy_ok today vs D fs -> srx_text today fs = Ok lines ->
  exists conf, statements lines = Some conf /\
    forall h terms from to extra, In (h, terms) fs -> srx_asks h from to extra ->
    forall p, in_families vs (p_src p) -> in_families vs (p_dst p) -> p_platform p = "srx" ->
    forall o, srx_decides conf from to p o <-> first_says (srx_rule today p) (terms_between fs from to) o.
Proof.
  intros [Ph Pt Ps Pb Pu Pn] H. unfold srx_text in H. apply bind_ok in H. destruct H as ([] & Ck & H).
  destruct (srx_filters today None ([], []) fs) as [((bk & st) & out)|e] eqn:Ef; [|discriminate H]. cbn [bind] in H. destruct st as (addresses & apps) eqn:Est.
  rewrite <- Est in Ef. assert (Eb : addresses = fst st) by (rewrite Est; reflexivity). assert (Eap : apps = snd st) by (rewrite Est; reflexivity). clear Est.
  apply bind_ok in H. destruct H as (ab & Eab & H). apply bind_ok in H. destruct H as (policies & Epo & H). apply ok_inj in H. subst lines.
  set (N := used_name today fs).
  assert (Np : forall n, N n -> proper_name n).
  { intros n (h & terms & t & I1 & I2 & I3 & I4 & I5). exact (sx_names _ _ (Pt h terms t I1 I2 I3 I4) n I5). }
  assert (Na : numbers_apart N) by (intros n m k X Y Z; exact (Pn n m k X Y Z)).
  assert (Fine : forall f, In f fs -> header_fine vs N D today f).
  { intros (h, terms) I So. cbn [fst snd] in *. destruct (Ph h terms I So) as (from & to & extra & A & K). exists from, to, extra. split; [exact A|]. split; [exact K|]. split.
    - intros t It L. destruct (Ps h terms from to extra t I A It L) as (S1 & S2). constructor; [exact (Pt h terms t I So It L)| |exact S1|exact S2].
      intros n In'. exists h, terms, t. auto.
    - exact (Pb h terms from to extra I A). }
  assert (S0 : state_ok vs N D ([], [])).
  { constructor; cbn [fst snd]; [|intros z []|constructor|intros a []]. constructor; [|intros z n l x E; discriminate E]. constructor; [constructor|intros z names []|intros z n l E; discriminate E]. }
  destruct (srx_filters_spec vs N D today fs None ([], []) bk st out Fine S0 Ef) as (S & _ & _ & F & Gl).
  assert (Gd : forall x, In x out -> exists f, In f fs /\ sh_options (fst f) <> None /\ header_fits vs N D today st f x).
  { intros x I. destruct (IptRule.Forall2_in_r _ _ _ _ F I) as (f & If & Hf). apply filter_In in If. destruct If as (If & Io). exists f. split; [exact If|]. split; [|exact Hf].
    unfold has_options in Io. destruct (sh_options (fst f)); [discriminate|discriminate Io]. }
  assert (Hg : forall x, In x out -> header_good x).
  { intros x I. destruct (Gd x I) as ((h, terms) & If & So & Hf). destruct (hf_asks _ _ _ _ _ _ _ Hf) as (extra & _ & K). pose proof (hf_header _ _ _ _ _ _ _ Hf) as Eh. cbn [fst snd] in *.
    constructor; [apply K|rewrite Eh; apply K|rewrite Eh; apply K|]. intros y Iy. destruct (hf_blocks _ _ _ _ _ _ _ Hf) as (blocks & Eq & Fb). rewrite Eq in Iy.
    destruct (block_policies _ _ _ _ _ _ _ _ _ Fb Iy) as (u & Iu & Lu & Fu). cbn [snd] in Iu. unfold fix_large in Iu. apply in_flat_map in Iu. destruct Iu as (t & It & Iu).
    destruct (large_live vs today t u (fun L => Pt h terms t If So It L) Iu Lu) as (-> & _). exact (fits_good _ _ _ _ _ _ _ Np S (Pt h terms t If So It Lu) Fu). }
  assert (Book : exists s, renders ab [s] /\ stmt_ok s = true /\ (out <> [] -> book_right vs D (fst st) s)).
  { rewrite Eb in Eab. destruct out as [|x out'] eqn:Eo.
    - (* no header for this platform *)
      destruct (match bk with Some g => g | None => false end) eqn:Eg.
      + assert (Fl : filter has_options fs = []) by (inversion F; reflexivity).
        assert (Eb0 : forall fs book st0, filter has_options fs = [] -> srx_filters today book st0 fs = Ok (book, st0, [])).
        { clear. induction fs as [|(h, terms) fs IH]; intros book st0 E; [reflexivity|]. cbn [filter] in E. unfold has_options in E at 1. cbn [fst] in E. cbn [srx_filters].
          destruct (sh_options h); [discriminate E|]. apply IH, E. }
        rewrite (Eb0 fs None ([], []) Fl) in Ef. apply ok_inj in Ef. rewrite !pair_equal_spec in Ef. destruct Ef as ((<- & _) & _). discriminate Eg.
      + destruct (zones_right vs N D (fst st) ab (st_book _ _ _ _ S) (fun n X => proj1 (Np n X)) (st_zones _ _ _ _ S) Na Eab) as (s & R & O & _). exists s. split; [exact R|]. split; [exact O|]. congruence.
    - rewrite (Gl x (or_introl eq_refl)) in Eab. destruct (sc_global (snd (fst x))) eqn:G.
      + destruct (Gd x (or_introl eq_refl)) as (f & If & So & Hf). destruct (global_right vs N D (fst st) ab (st_book _ _ _ _ S) (cf_book _ _ _ (hf_cfg _ _ _ _ _ _ _ Hf) G) (fun n X => proj1 (Np n X)) Na Eab) as (s & R & O & B).
        exists s. auto.
      + destruct (zones_right vs N D (fst st) ab (st_book _ _ _ _ S) (fun n X => proj1 (Np n X)) (st_zones _ _ _ _ S) Na Eab) as (s & R & O & B). exists s. auto. }
  destruct Book as (book & Rb & Ob & Br).
  exists (srx_conf book out apps). split; [apply conf_reads; try assumption; rewrite Eap; exact (st_good _ _ _ _ S)|].
  intros h terms from to extra Ih Ah p Fs Fd Pl o.
  assert (Io : has_options (h, terms) = true) by (unfold has_options; cbn [fst]; unfold srx_asks in Ah; rewrite Ah; reflexivity).
  destruct (IptRule.Forall2_in_l _ _ _ _ F (proj2 (filter_In _ _ _) (conj Ih Io))) as (x0 & Ix0 & Hf0).
  assert (Ez : (from = "all" <-> to = "all") /\ sc_from (snd (fst x0)) = from /\ sc_to (snd (fst x0)) = to).
  { destruct (hf_asks _ _ _ _ _ _ _ Hf0) as (ex & A & _). cbn [fst snd] in *. unfold srx_asks in A, Ah. rewrite Ah in A. assert (Z1 : from = sc_from (snd (fst x0))) by congruence. assert (Z2 : to = sc_to (snd (fst x0))) by congruence.
    rewrite Z1, Z2. split; [exact (hf_all _ _ _ _ _ _ _ Hf0)|auto]. }
  destruct Ez as (Ez & _).
  assert (Ne : out <> []) by (intros ->; destruct Ix0). specialize (Br Ne).
  unfold srx_decides, context. 
  assert (Sec : within ["security"] (srx_conf book out apps) = [book; policies_stmt (map header_stmt out)]).
  { unfold srx_conf, apps_stmts. destruct (some (kept_apps apps)); reflexivity. }
  rewrite Sec.
  assert (Pol : within ["replace:"; "policies"] [book; policies_stmt (map header_stmt out)] = map header_stmt out).
  { change [book; policies_stmt (map header_stmt out)] with ([book] ++ [policies_stmt (map header_stmt out)]). rewrite within_app, (proj1 Br). unfold policies_stmt. rewrite within_one.
    destruct (list_eq_dec string_dec ["replace:"; "policies"] ["replace:"; "policies"]) as [_|X]; [reflexivity|congruence]. }
  rewrite Pol, (within_headers _ from to).
  2: { intros x Ix. apply same_words_zones; [|exact Ez]. destruct (Gd x Ix) as (f & _ & _ & Hf). exact (hf_all _ _ _ _ _ _ _ Hf). }
  destruct (zone_names vs N D today st from to fs out F) as (Und & _).
  { intros (h', terms') t I So It L. exact (Pt h' terms' t I So It L). }
  { intros a f b f' c t t'. exact (Pu a f b f' c from to t t'). }
  { exact (srx_filters_names _ _ _ _ _ _ _ Ef). }
  rewrite names_flat, (flat_map_ext _ (fun x => map pname (snd x)) (fun x => header_names x)).
  assert (Drop : forall P Q : Prop, P -> (P /\ Q <-> Q)) by tauto. rewrite (Drop _ _ Und). clear Drop.
  rewrite <- (CiscoGroupAcl.first_says_filter _ is_block).
  2: { intros s Is Ks a. destruct s as [ws|ws body]; [exact (fun X => X)|discriminate Ks]. }
  rewrite filter_flat. rewrite (flat_map_ext _ (fun x => map pstmt (snd x)) (fun x => leaves_out x)).
  set (conf := srx_conf book out apps). set (mine := filter (between_zones from to) out).
  assert (Own : terms_between fs from to = flat_map snd (filter (asks_for from to) fs)) by reflexivity.
  assert (Kt : forall t, In t (terms_between fs from to) -> srx_live today t -> srx_term_ok vs t).
  { intros t It L. rewrite Own in It. apply in_flat_map in It. destruct It as ((h', terms') & If & It). apply filter_In in If. destruct If as (If & Ia). apply (Pt h' terms' t If); [|exact It|exact L].
    unfold asks_for in Ia. cbn [fst] in Ia. destruct (sh_options h'); [discriminate|discriminate Ia]. }
  rewrite <- (large_says vs today p (terms_between fs from to) o Kt). rewrite Own. unfold fix_large. 
  assert (Fm : forall l : list (srx_header * list term), flat_map (fix_large_term vs) (flat_map snd l) = flat_map (fun f => fix_large vs (snd f)) l).
  { induction l as [|f l IH]; [reflexivity|]. cbn [flat_map]. rewrite flat_map_app, IH. reflexivity. }
  rewrite Fm. clear Fm.
  pose proof (asked_zones vs N D today st from to fs out F) as Fz. fold mine in Fz.
  assert (X : exists blocks, flat_map (fun x : srx_header * srx_cfg * list srx_policy => map pstmt (snd x)) mine = concat blocks /\
    Forall2 (fun t b => (forall a, (exists y, In y b /\ policy_says conf from to p y a) <-> srx_rule today p t a) /\ (forall a a', srx_rule today p t a -> srx_rule today p t a' -> a = a'))
      (flat_map (fun f : srx_header * list term => fix_large vs (snd f)) (filter (asks_for from to) fs)) blocks).
  { assert (Sub1 : forall f, In f (filter (asks_for from to) fs) -> In f fs) by (intros f I; apply filter_In in I; apply I).
    assert (Sub2 : forall x, In x mine -> between_zones from to x = true) by (intros x I; apply filter_In in I; apply I).
    revert Fz Sub1 Sub2. generalize (filter (asks_for from to) fs), mine. intros l m Fz. induction Fz as [|f x l m Hf Fz IH]; intros Sub1 Sub2.
    - exists []. split; [reflexivity|constructor].
    - destruct (IH (fun f I => Sub1 f (or_intror I)) (fun x I => Sub2 x (or_intror I))) as (bs & Ebs & Fbs). destruct (hf_blocks _ _ _ _ _ _ _ Hf) as (blocks & Eq & Fb).
      exists (map (map pstmt) blocks ++ bs). cbn [flat_map]. split; [rewrite Ebs, concat_app, Eq, concat_map; reflexivity|]. apply Forall2_app; [|exact Fbs].
      pose proof (Sub1 f (or_introl eq_refl)) as If. pose proof (Sub2 x (or_introl eq_refl)) as Bz. unfold between_zones in Bz. apply andb_true_iff in Bz. rewrite !String.eqb_eq in Bz. destruct Bz as (Bf & Bt).
      destruct f as (h', terms'). cbn [fst snd] in *. destruct (hf_asks _ _ _ _ _ _ _ Hf) as (ex & A' & _). cbn [fst] in A'.
      assert (So : sh_options h' <> None) by (unfold srx_asks in A'; rewrite A'; discriminate).
      assert (Tm : forall u, In u (fix_large vs terms') -> srx_live today u -> In u terms').
      { intros u Iu Lu. unfold fix_large in Iu. apply in_flat_map in Iu. destruct Iu as (t & It & Iu). destruct (large_live vs today t u (fun L => Pt h' terms' t If So It L) Iu Lu) as (-> & _). exact It. }
      assert (Uq : forall t a a', srx_rule today p t a -> srx_rule today p t a' -> a = a') by (intros t a a' (_ & _ & w & Z1 & Z2) (_ & _ & w' & Z3 & Z4); assert (w = w') by congruence; subst; congruence).
      revert Fb Tm. clear - Uq Np S Br Eap Fs Fd Pl Ck Bf Bt Pt If So. intros Fb. induction Fb as [|t b ts blocks Hb Fb IH]; intros Tm; [constructor|]. cbn [map]. constructor; [|apply IH; intros u I; apply Tm; right; exact I].
      split; [|apply Uq]. intros a. destruct Hb as [(Nl & ->)|(L & Hb)].
      + split; [intros (y & [] & _)|intros (L & _); destruct (Nl L)].
      + pose proof (Tm t (or_introl eq_refl) L) as It. pose proof (Pt h' terms' t If So It L) as K.
        assert (M : term_matches t p <-> side_matches (t_source_address t) (t_source_address_exclude t) (p_src p) /\
          side_matches (t_destination_address t) (t_destination_address_exclude t) (p_dst p) /\ service_matches t p /\ rest_matches t p).
        { refine (srx_matches _ ["srx"] terms' t p vs Ck _ (or_introl eq_refl) It (proj1 (proj2 L)) K Pl). apply in_map_iff. exists (h', terms'). split; [|exact If]. cbn [fst snd]. destruct (sh_options h'); [reflexivity|congruence]. }
        destruct Hb as [(-> & Np')|(y & -> & Fy)].
        * split; [intros (y & [] & _)|]. intros (_ & Mt & _). apply M in Mt. destruct Mt as (M1 & M2 & _). destruct (Np' _ _ Fs Fd (conj M1 M2)).
        * cbn [map]. rewrite <- (policy_exact vs N D st (snd (fst x)) t y book (map header_stmt out) apps from to today p a Np S K L Fy Bf Bt Br Eap Fs Fd M).
          split; [intros (s & [<-|[]] & Q); exact Q|intros Q; exists (pstmt y); split; [left; reflexivity|exact Q]]. }
  destruct X as (blocks & -> & Fb). exact (first_says_blocks _ _ _ _ o Fb).
Qed.
