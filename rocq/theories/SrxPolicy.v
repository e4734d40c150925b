(** Policies of SRX configurations: their text and what it says. *)
From Coq Require Import Lia ZifyBool ZifyNat.
From Verif Require Import SpecSrx BaseFacts TextProofs PyStrFacts PortProofs PolicyProofs GenProofs GenProofs2 CiscoProofs CiscoAcl JuniperText JuniperProofs JuniperTerm IptProofs GceDecide SrxText SrxRead SrxBook SrxBookText SrxApps SrxTerm.
Local Open Scope string_scope.
Local Open Scope list_scope.
Local Open Scope Z_scope.

(** ** Statements *)
Definition bracketed (k : string) (l : list string) : stmt := Leaf (k :: "[" :: l ++ ["]"]).
Definition side_stmt (key : string) (l : list net) : stmt :=
  if some l then bracketed key (sorted_set (map nptoken l)) else Leaf [key; "any"].
Definition opt_list (k : string) (l m : list string) : list stmt := if some l then [bracketed k m] else [].
Definition has_app (y : srx_policy) : bool :=
  some (t_source_port (sp_term y)) || some (t_destination_port (sp_term y)) || some (t_icmp_type (sp_term y)) || some (sp_protocol y).
Definition application_stmt (y : srx_policy) : stmt := Leaf ["application"; if has_app y then (sp_app y ++ "-app")%string else "any"].
Definition match_stmts (y : srx_policy) : list stmt :=
  let t := sp_term y in
  [side_stmt "source-address" (t_source_address t); side_stmt "destination-address" (t_destination_address t); application_stmt y]
  ++ opt_list "dscp" (t_dscp_match t) (t_dscp_match t) ++ opt_list "dscp-except" (t_dscp_except t) (t_dscp_except t)
  ++ opt_list "from-zone" (t_source_zone t) (sorted_set (t_source_zone t)) ++ opt_list "to-zone" (t_destination_zone t) (sorted_set (t_destination_zone t)).
Definition log_stmts (action target : string) : list stmt :=
  if String.eqb target "log-both" then [Leaf ["session-init"]; Leaf ["session-close"]]
  else if String.eqb action "accept" then [Leaf ["session-close"]] else [Leaf ["session-init"]].
Definition then_stmts (t : term) (action w : string) : list stmt :=
  [Leaf [w]] ++ (if some (t_logging t) then [Block ["log"] (flat_map (log_stmts action) (t_logging t))] else []) ++ (if given (t_counter t) then [Leaf ["count"]] else []).
Definition policy_stmt (y : srx_policy) (action w : string) : stmt :=
  Block ["policy"; t_name (sp_term y)] [Block ["match"] (match_stmts y); Block ["then"] (then_stmts (sp_term y) action w)].

(** ** Their text *)
Record policy_words (y : srx_policy) : Prop := {
  pw_name : plain_word (t_name (sp_term y));
  pw_app : plain_word (sp_app y);
  pw_src : plain_words (map nptoken (t_source_address (sp_term y)));
  pw_dst : plain_words (map nptoken (t_destination_address (sp_term y)));
  pw_words : plain_words (t_dscp_match (sp_term y) ++ t_dscp_except (sp_term y) ++ t_source_zone (sp_term y) ++ t_destination_zone (sp_term y));
  pw_comments : quiet_comments (term_comments (sp_term y)) }.
Lemma sorted_plain l : plain_words l -> plain_words (sorted_set l).
Proof. intros H s I. exact (H s (proj1 (sorted_set_in _ _) I)). Qed.
Lemma side_render key l : plain_word key -> plain_words (map nptoken l) -> renders [srx_side key l] [side_stmt key l].
Proof.
  intros K P. unfold srx_side, side_stmt. destruct (some l) eqn:S.
  - apply list_leaf; [exact K|apply sorted_plain, P|]. apply sorted_set_nonnil. destruct l; [discriminate S|discriminate].
  - apply leaf_words; [|plain|discriminate]. cbn [join]. rewrite str_app_assoc. reflexivity.
Qed.
Lemma opt_render n k l m : plain_word k -> plain_words m -> (l <> [] -> m <> []) -> renders (if some l then [srx_line n (srx_list k m)] else []) (opt_list k l m).
Proof.
  intros K P E. unfold opt_list. destruct (some l) eqn:S; [|apply renders_nil]. apply list_leaf; [exact K|exact P|]. apply E. destruct l; [discriminate S|discriminate].
Qed.
Lemma log_render action target : renders (srx_log action target) (log_stmts action target).
Proof.
  assert (L : forall w, In w ["session-init"; "session-close"] -> renders [srx_line 6 (w ++ ";")%string] [Leaf [w]]).
  { intros w I. apply leaf_words; [reflexivity| |discriminate]. destruct I as [<-|[<-|[]]]; plain. }
  pose proof (L "session-init" ltac:(cbn; auto)) as L1. pose proof (L "session-close" ltac:(cbn; auto)) as L2. cbn [append] in L1, L2.
  unfold srx_log, log_stmts. destruct (String.eqb target "log-both"); [exact (renders_app _ _ _ _ L1 L2)|]. destruct (String.eqb action "accept"); assumption.
Qed.
Lemma policy_render verbose y action w lines : policy_words y -> t_action (sp_term y) = [action] -> assoc action srx_actions = Some w -> plain_word w ->
  srx_policy_lines verbose y = Ok lines -> renders lines [policy_stmt y action w].
Proof.
  intros [Pn Pa Ps Pd Pw Pc] Ea Ew Ww H. unfold srx_policy_lines in H. rewrite Ea in H. cbn [mapM] in H. unfold srx_action in H. rewrite Ew in H. cbn [bind] in H.
  apply ok_inj in H. subst lines. cbn [concat]. rewrite app_nil_r.
  assert (Sub : forall l, (forall s, In s l -> In s (t_dscp_match (sp_term y) ++ t_dscp_except (sp_term y) ++ t_source_zone (sp_term y) ++ t_destination_zone (sp_term y))) -> plain_words l) by (intros l H s I; apply Pw, H, I).
  assert (W1 : plain_words (t_dscp_match (sp_term y))) by (apply Sub; intros s I; apply in_or_app; auto).
  assert (W2 : plain_words (t_dscp_except (sp_term y))) by (apply Sub; intros s I; apply in_or_app; right; apply in_or_app; auto).
  assert (W3 : plain_words (t_source_zone (sp_term y))) by (apply Sub; intros s I; apply in_or_app; right; apply in_or_app; right; apply in_or_app; auto).
  assert (W4 : plain_words (t_destination_zone (sp_term y))) by (apply Sub; intros s I; apply in_or_app; right; apply in_or_app; right; apply in_or_app; auto).
  set (t := sp_term y) in *.
  set (matches := [srx_side "source-address" (t_source_address t)] ++ [srx_side "destination-address" (t_destination_address t)]
      ++ [if has_app y then srx_line 5 ("application " ++ sp_app y ++ "-app;")%string else srx_line 5 "application any;"]
      ++ (if some (t_dscp_match t) then [srx_line 5 (srx_list "dscp" (t_dscp_match t))] else [])
      ++ (if some (t_dscp_except t) then [srx_line 5 (srx_list "dscp-except" (t_dscp_except t))] else [])
      ++ (if some (t_source_zone t) then [srx_line 5 (srx_list "from-zone" (sorted_set (t_source_zone t)))] else [])
      ++ (if some (t_destination_zone t) then [srx_line 5 (srx_list "to-zone" (sorted_set (t_destination_zone t)))] else [])).
  assert (Rm : renders matches (match_stmts y)).
  { unfold matches, match_stmts. fold t. apply (renders_app _ _ [side_stmt "source-address" (t_source_address t)]); [apply side_render; [apply plain_lit; reflexivity|exact Ps]|].
    apply (renders_app _ _ [side_stmt "destination-address" (t_destination_address t)]); [apply side_render; [apply plain_lit; reflexivity|exact Pd]|].
    apply (renders_app _ _ [application_stmt y]).
    { unfold application_stmt. destruct (has_app y).
      - assert (Pq : plain_word (sp_app y ++ "-app")%string) by (apply plain_cat; [exact Pa|reflexivity]). apply leaf_words; [|plain|discriminate]. cbn [join]. rewrite !str_app_assoc. reflexivity.
      - apply leaf_words; [reflexivity|plain|discriminate]. }
    apply renders_app; [apply opt_render; [apply plain_lit; reflexivity|exact W1|auto]|]. apply renders_app; [apply opt_render; [apply plain_lit; reflexivity|exact W2|auto]|].
    apply renders_app; apply opt_render; [apply plain_lit; reflexivity|apply sorted_plain, W3|apply sorted_set_nonnil|apply plain_lit; reflexivity|apply sorted_plain, W4|apply sorted_set_nonnil]. }
  set (thens := [srx_line 5 (w ++ ";")%string]
      ++ (if some (t_logging t) then [srx_line 5 "log {"] ++ flat_map (srx_log action) (t_logging t) ++ [srx_line 5 "}"] else [])
      ++ (if given (t_counter t) then [srx_line 5 "count;"] else [])).
  assert (Rt : renders thens (then_stmts t action w)).
  { unfold thens, then_stmts. apply (renders_app _ _ [Leaf [w]]); [apply leaf_words; [reflexivity|plain|discriminate]|]. apply renders_app.
    - destruct (some (t_logging t)); [|apply renders_nil]. apply block_words; [reflexivity|plain|discriminate|]. apply renders_concat_map. intros x _. apply log_render.
    - destruct (given (t_counter t)); [|apply renders_nil]. apply leaf_words; [reflexivity|plain|discriminate]. }
  match goal with |- renders ?L _ =>
    replace L with (srx_comment verbose t ++ ([srx_line 3 ("policy " ++ t_name t ++ " {")%string]
      ++ (([srx_line 4 "match {"] ++ matches ++ [srx_line 4 "}"]) ++ ([srx_line 4 "then {"] ++ thens ++ [srx_line 4 "}"])) ++ [srx_line 3 "}"])) end.
  - apply (renders_app _ _ []); [apply srx_comment_silent, Pc|]. unfold policy_stmt. apply block_words; [|plain|discriminate|].
    + cbn [join]. rewrite !str_app_assoc. reflexivity.
    + apply (renders_app _ _ [Block ["match"] (match_stmts y)]); apply block_words; (reflexivity || plain || discriminate || assumption).
  - unfold matches, thens. rewrite <- !app_assoc. reflexivity.
Qed.
Lemma bracket_ok k l : plain_word k -> plain_words l -> stmt_ok (bracketed k l) = true.
Proof.
  intros K P. unfold bracketed. cbn [stmt_ok forallb]. rewrite forallb_app. rewrite (plain_oks l P). cbn [forallb andb].
  change (word_ok "]") with true. change (word_ok "[") with true. pose proof (plain_oks [k] (plain_cons _ _ K plain_nil)) as X. cbn [forallb] in X. apply andb_true_iff in X.
  destruct X as (-> & _). reflexivity.
Qed.
Lemma opt_list_ok k l m : plain_word k -> plain_words m -> forallb stmt_ok (opt_list k l m) = true.
Proof. intros K P. unfold opt_list. destruct (some l); [|reflexivity]. cbn [forallb]. rewrite bracket_ok by assumption. reflexivity. Qed.
Lemma policy_stmt_ok y action w : policy_words y -> plain_word w -> stmt_ok (policy_stmt y action w) = true.
Proof.
  intros [Pn Pa Ps Pd Pw Pc] Ww. unfold policy_stmt. cbn [stmt_ok]. apply andb_true_iff. split; [apply plain_oks; plain|]. cbn [forallb]. rewrite andb_true_r. apply andb_true_iff. split.
  - cbn [stmt_ok]. apply andb_true_iff. split; [reflexivity|]. unfold match_stmts. rewrite !forallb_app.
    assert (Sub : forall l, (forall s, In s l -> In s (t_dscp_match (sp_term y) ++ t_dscp_except (sp_term y) ++ t_source_zone (sp_term y) ++ t_destination_zone (sp_term y))) -> plain_words l) by (intros l H s I; apply Pw, H, I).
    assert (W1 : plain_words (t_dscp_match (sp_term y))) by (apply Sub; intros s I; apply in_or_app; auto).
    assert (W2 : plain_words (t_dscp_except (sp_term y))) by (apply Sub; intros s I; apply in_or_app; right; apply in_or_app; auto).
    assert (W3 : plain_words (t_source_zone (sp_term y))) by (apply Sub; intros s I; apply in_or_app; right; apply in_or_app; right; apply in_or_app; auto).
    assert (W4 : plain_words (t_destination_zone (sp_term y))) by (apply Sub; intros s I; apply in_or_app; right; apply in_or_app; right; apply in_or_app; auto).
    rewrite (opt_list_ok "dscp") by (first [exact W1|apply plain_lit; reflexivity]). rewrite (opt_list_ok "dscp-except") by (first [exact W2|apply plain_lit; reflexivity]).
    rewrite (opt_list_ok "from-zone") by (first [exact (sorted_plain _ W3)|apply plain_lit; reflexivity]). rewrite (opt_list_ok "to-zone") by (first [exact (sorted_plain _ W4)|apply plain_lit; reflexivity]).
    rewrite !andb_true_r. cbn [forallb].
    assert (Sd : forall k l, plain_word k -> plain_words (map nptoken l) -> stmt_ok (side_stmt k l) = true).
    { intros k l K P. unfold side_stmt. destruct (some l); [apply bracket_ok; [exact K|apply sorted_plain, P]|]. cbn [stmt_ok]. apply plain_oks. plain. }
    rewrite (Sd "source-address") by (first [exact Ps|apply plain_lit; reflexivity]). rewrite (Sd "destination-address") by (first [exact Pd|apply plain_lit; reflexivity]).
    cbn [andb]. rewrite andb_true_r. unfold application_stmt. cbn [stmt_ok]. apply plain_oks. destruct (has_app y); [|plain].
    assert (Pq : plain_word (sp_app y ++ "-app")%string) by (apply plain_cat; [exact Pa|reflexivity]). plain.
  - cbn [stmt_ok]. apply andb_true_iff. split; [reflexivity|]. unfold then_stmts. rewrite !forallb_app. apply andb_true_iff. split; [|apply andb_true_iff; split].
    + cbn [forallb]. rewrite andb_true_r. cbn [stmt_ok]. apply plain_oks. plain.
    + destruct (some (t_logging (sp_term y))); [|reflexivity]. cbn [forallb]. rewrite andb_true_r. cbn [stmt_ok]. apply andb_true_iff. split; [reflexivity|].
      apply forallb_forall. intros s I. apply in_flat_map in I. destruct I as (x & _ & I). unfold log_stmts in I.
      destruct (String.eqb x "log-both"); [destruct I as [<-|[<-|[]]]; reflexivity|]. destruct (String.eqb action "accept"); destruct I as [<-|[]]; reflexivity.
    + destruct (given (t_counter (sp_term y))); reflexivity.
Qed.

(** ** What they say *)
Definition all_say (conf : list stmt) (from to : string) (p : packet) (l : list stmt) : Prop := forall m, In m l -> match_says conf from to p m.
Lemma all_app conf from to p a b : all_say conf from to p (a ++ b) <-> all_say conf from to p a /\ all_say conf from to p b.
Proof.
  unfold all_say. split.
  - intros H. split; intros m I; apply H, in_or_app; auto.
  - intros (A & B) m I. apply in_app_or in I. destruct I; auto.
Qed.
Lemma all_one conf from to p m : all_say conf from to p [m] <-> match_says conf from to p m.
Proof. unfold all_say. split; [intros H; apply H; left; reflexivity|intros H x [<-|[]]; exact H]. Qed.
Lemma all_cons conf from to p m l : all_say conf from to p (m :: l) <-> match_says conf from to p m /\ all_say conf from to p l.
Proof. change (m :: l) with ([m] ++ l). rewrite all_app, all_one. reflexivity. Qed.
Lemma all_nil conf from to p : all_say conf from to p [] <-> True.
Proof. split; [auto|intros _ m []]. Qed.
Lemma one_bracket P k l : match bracketed k l with Leaf (_ :: ws) => one_of P ws | _ => False end <-> exists w, In w l /\ P w.
Proof. unfold bracketed, one_of. rewrite bracket_values. reflexivity. Qed.
Lemma opt_any conf from to p k l m (v : string) : (forall ws, match_says conf from to p (Leaf (k :: ws)) <-> one_of (eq v) ws) -> (forall s, In s m <-> In s l) ->
  all_say conf from to p (opt_list k l m) <-> any_or l (eq v).
Proof.
  intros H E. unfold opt_list. destruct l as [|x l]; cbn [some].
  - rewrite all_nil. split; [left; reflexivity|auto].
  - rewrite all_one. unfold bracketed. rewrite H. unfold one_of. rewrite bracket_values. unfold any_or. split.
    + intros (w & I & F). right. exists w. split; [apply E, I|exact F].
    + intros [X|(w & I & F)]; [discriminate X|]. exists w. split; [apply E, I|exact F].
Qed.
Lemma opt_none conf from to p k l (v : string) : (forall ws, match_says conf from to p (Leaf (k :: ws)) <-> none (eq v) ws) ->
  all_say conf from to p (opt_list k l l) <-> none_of l (eq v).
Proof.
  intros H. unfold opt_list. destruct l as [|x l]; cbn [some].
  - rewrite all_nil. split; [intros _ a []|auto].
  - rewrite all_one. unfold bracketed. rewrite H. unfold none. rewrite bracket_values. reflexivity.
Qed.
Lemma side_says conf from to p key l (q : string -> Prop) : (forall ws, match_says conf from to p (Leaf (key :: ws)) <-> one_of (fun w => w = "any" \/ q w) ws) ->
  ~ In "any" (map nptoken l) ->
  match_says conf from to p (side_stmt key l) <-> l = [] \/ exists n, In n (map nptoken l) /\ q n.
Proof.
  intros H Na. unfold side_stmt. destruct l as [|x l].
  - cbn [some]. rewrite H. unfold one_of. cbn [values String.eqb Ascii.eqb Bool.eqb]. split; [left; reflexivity|]. intros _. exists "any". split; [left; reflexivity|left; reflexivity].
  - set (m := x :: l) in *. change (some m) with true. cbv iota. unfold bracketed. rewrite H. unfold one_of. rewrite bracket_values. split.
    + intros (w & I & [->|Q]); [apply (proj1 (sorted_set_in _ _)) in I; destruct (Na I)|]. right. exists w. split; [apply sorted_set_in, I|exact Q].
    + intros [E|(n & I & Q)]; [discriminate E|]. exists n. split; [apply sorted_set_in, I|right; exact Q].
Qed.
Lemma policy_means conf from to p y action w o (src dst : string -> Prop) (service : Prop) :
  ~ In "any" (map nptoken (t_source_address (sp_term y))) -> ~ In "any" (map nptoken (t_destination_address (sp_term y))) ->
  (forall n, In n (map nptoken (t_source_address (sp_term y))) -> name_says (book_of conf from) n (p_src p) <-> src n) ->
  (forall n, In n (map nptoken (t_destination_address (sp_term y))) -> name_says (book_of conf to) n (p_dst p) <-> dst n) ->
  (app_says conf (if has_app y then (sp_app y ++ "-app")%string else "any") p <-> service) -> In w srx_outcomes ->
  policy_says conf from to p (policy_stmt y action w) o <->
  (t_source_address (sp_term y) = [] \/ exists n, In n (map nptoken (t_source_address (sp_term y))) /\ src n) /\
  (t_destination_address (sp_term y) = [] \/ exists n, In n (map nptoken (t_destination_address (sp_term y))) /\ dst n) /\
  service /\ rest_matches (sp_term y) p /\ o = w.
Proof.
  intros N1 N2 S1 S2 Sv Iw. unfold policy_says, policy_stmt.
  set (m := match_stmts y). set (th := then_stmts (sp_term y) action w).
  change (within ["match"] [Block ["match"] m; Block ["then"] th]) with (m ++ []). change (within ["then"] [Block ["match"] m; Block ["then"] th]) with (th ++ []).
  rewrite !app_nil_r. fold (all_say conf from to p m).
  assert (Em : all_say conf from to p m <->
    (t_source_address (sp_term y) = [] \/ exists n, In n (map nptoken (t_source_address (sp_term y))) /\ src n) /\
    (t_destination_address (sp_term y) = [] \/ exists n, In n (map nptoken (t_destination_address (sp_term y))) /\ dst n) /\ service /\ rest_matches (sp_term y) p).
  { unfold m, match_stmts. rewrite !all_app, !all_cons, all_nil.
    rewrite (side_says conf from to p "source-address" _ (fun w => name_says (book_of conf from) w (p_src p))) by (first [exact N1|intros ws; reflexivity]).
    rewrite (side_says conf from to p "destination-address" _ (fun w => name_says (book_of conf to) w (p_dst p))) by (first [exact N2|intros ws; reflexivity]).
    rewrite (opt_any conf from to p "dscp" _ _ (p_dscp p)) by (intros; reflexivity).
    rewrite (opt_none conf from to p "dscp-except" _ (p_dscp p)) by (intros; reflexivity).
    rewrite (opt_any conf from to p "from-zone" (t_source_zone (sp_term y)) _ (p_src_zone p)) by (first [intros ws; reflexivity|intros s; apply sorted_set_in]).
    rewrite (opt_any conf from to p "to-zone" (t_destination_zone (sp_term y)) _ (p_dst_zone p)) by (first [intros ws; reflexivity|intros s; apply sorted_set_in]).
    assert (Ea : match_says conf from to p (application_stmt y) <-> service).
    { rewrite <- Sv. unfold application_stmt. 
      assert (Nb : (if has_app y then (sp_app y ++ "-app")%string else "any") <> "[") by (destruct (has_app y); [destruct (sp_app y) as [|c [|d s]]|]; discriminate).
      revert Nb. generalize (if has_app y then (sp_app y ++ "-app")%string else "any"). intros name Nb.
      change (match_says conf from to p (Leaf ["application"; name])) with (one_of (fun w => app_says conf w p) [name]). unfold one_of.
      cbn [values]. rewrite (proj2 (String.eqb_neq _ _) Nb). split; [intros (w' & [<-|[]] & H); exact H|intros H; exists name; split; [left; reflexivity|exact H]]. }
    rewrite Ea. unfold rest_matches.
    assert (X1 : (exists n, In n (map nptoken (t_source_address (sp_term y))) /\ name_says (book_of conf from) n (p_src p)) <-> exists n, In n (map nptoken (t_source_address (sp_term y))) /\ src n).
    { split; intros (n & I & H); exists n; (split; [exact I|apply (S1 n I), H]). }
    assert (X2 : (exists n, In n (map nptoken (t_destination_address (sp_term y))) /\ name_says (book_of conf to) n (p_dst p)) <-> exists n, In n (map nptoken (t_destination_address (sp_term y))) /\ dst n).
    { split; intros (n & I & H); exists n; (split; [exact I|apply (S2 n I), H]). }
    rewrite X1, X2. tauto. }
  rewrite Em.
  assert (Et : In o srx_outcomes -> (In (Leaf [o]) th <-> o = w)).
  { intros Io. unfold th, then_stmts. rewrite !in_app_iff. split.
    - intros [[E|[]]|[I|I]]; [congruence| |].
      + destruct (some (t_logging (sp_term y))); [|destruct I]. destruct I as [E|[]]. discriminate E.
      + destruct (given (t_counter (sp_term y))); [|destruct I]. destruct I as [E|[]]. assert (o = "count") by congruence. subst o. destruct Io as [X|[X|[X|[]]]]; discriminate X.
    - intros ->. left. left. reflexivity. }
  split.
  - intros (_ & (A & B & C & E) & Io & I). apply (Et Io) in I. auto 10.
  - intros (A & B & C & E & ->). split; [reflexivity|]. split; [auto|]. split; [exact Iw|]. apply (Et Iw). reflexivity.
Qed.
