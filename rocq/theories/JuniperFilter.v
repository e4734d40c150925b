(** A whole Juniper filter reads as one filter and decides as the policy does. *)
From Coq Require Import Lia ZifyBool ZifyNat.
From Verif Require Import SpecJuniper SpecSum BaseFacts PyStrFacts PortProofs GenProofs GenProofs2 CiscoProofs CiscoProofs2 CiscoTerm CiscoAcl
  JuniperText JuniperProofs JuniperTerm.
Local Open Scope string_scope.
Local Open Scope list_scope.
Local Open Scope Z_scope.

(** ** Terms as FixHighPorts leaves them *)

Lemma established_juniper c t : juniper_term_ok c t -> wants_established t -> t_protocol t = ["tcp"].
Proof.
  intros K (o & I & S). destruct (jt_option _ _ K o I) as [-> |[(_ & H)|[-> |[(-> & _)|[-> |(_ & N)]]]]]; try (vm_compute in S; discriminate S); [exact H|].
  assert (X : In "established" rewritten_options) by (right; left; reflexivity). rewrite (N _ X) in S. discriminate S.
Qed.
Lemma juniper_high_ports c t ports : juniper_term_ok c t -> t_protocol t <> [] -> (forall r, In r ports -> 0 <= fst r /\ 0 <= snd r) ->
  juniper_term_ok c (set_destination_port ports t).
Proof.
  intros K Pr P. constructor.
  - exact (jt_type _ _ K).
  - exact (jt_dsmo _ _ K).
  - exact (jt_only _ _ K).
  - exact (jt_name _ _ K).
  - exact (jt_action _ _ K).
  - exact (jt_then _ _ K).
  - exact (jt_addr _ _ K).
  - exact (jt_src _ _ K).
  - exact (jt_dst _ _ K).
  - exact (jt_protocol _ _ K).
  - intros r I. change (In r (t_port t ++ t_source_port t ++ ports)) in I. rewrite app_assoc in I. apply in_app_or in I.
    destruct I as [I|I]; [apply (jt_ports _ _ K); rewrite app_assoc; apply in_or_app; left; exact I|apply P, I].
  - exact (jt_option _ _ K).
  - intros _. left. exact Pr.
  - exact (jt_codes _ _ K).
  - exact (jt_ttl _ _ K).
  - exact (jt_hops _ _ K).
  - exact (jt_words _ _ K).
  - exact (jt_values _ _ K).
Qed.
Lemma juniper_name c t n : juniper_term_ok c t -> n = t_name t -> juniper_term_ok c (set_name n t).
Proof.
  intros K ->. constructor.
  - exact (jt_type _ _ K).
  - exact (jt_dsmo _ _ K).
  - exact (jt_only _ _ K).
  - exact (jt_name _ _ K).
  - exact (jt_action _ _ K).
  - exact (jt_then _ _ K).
  - exact (jt_addr _ _ K).
  - exact (jt_src _ _ K).
  - exact (jt_dst _ _ K).
  - exact (jt_protocol _ _ K).
  - exact (jt_ports _ _ K).
  - exact (jt_option _ _ K).
  - exact (jt_condition _ _ K).
  - exact (jt_codes _ _ K).
  - exact (jt_ttl _ _ K).
  - exact (jt_hops _ _ K).
  - exact (jt_words _ _ K).
  - exact (jt_values _ _ K).
Qed.
Lemma remove_first_absent x l : ~ In x l -> remove_first x l = l.
Proof.
  induction l as [|y l IH]; intros N; [reflexivity|]. cbn [remove_first]. destruct (String.eqb x y) eqn:E.
  - apply String.eqb_eq in E. destruct (N (or_introl (eq_sym E))).
  - rewrite IH; [reflexivity|]. intros I. apply N. right. exact I.
Qed.
Lemma fix_term_length_plain table name limit n : fix_term_length table name false false limit = Ok n -> n = name.
Proof. intros H. apply fix_term_length_truncation in H. destruct H as [(_ & E)|(E & _)]; [exact E|discriminate E]. Qed.

Lemma established_dec t : wants_established t \/ ~ wants_established t.
Proof.
  destruct (existsb (starts_with "established") (t_option t)) eqn:E; [left; apply existsb_exists in E; exact E|right].
  intros X. apply existsb_exists in X. congruence.
Qed.

(** ** Selection of terms *)

Definition rendered_rule (p : packet) (ti : term * bool) (o : string) : Prop :=
  snd ti = false /\ term_matches (fst ti) p /\ exists a, t_action (fst ti) = [a] /\ juniper_verdict a = Some o.
Definition selected_ok (c : juniper_cfg) (p : packet) (ti : term * bool) : Prop :=
  juniper_term_ok c (fst ti) /\ opt_eq (t_restrict_address_family (fst ti)) (p_family p) /\ quiet_comments (term_comments (fst ti)).

Lemma juniper_select_spec c today p : juniper_traffic c p -> forall terms seen ts, Forall (juniper_listed_ok c today) terms ->
  juniper_select c today seen terms = Ok ts ->
  Forall (selected_ok c p) ts /\ forall o, first_says (rendered_rule p) ts o <-> first_says (juniper_rule today p) terms o.
Proof.
  intros Tr. assert (Fam : p_family p = jc_type c) by apply Tr.
  induction terms as [|t rest IH]; intros seen ts F H.
  { apply ok_inj in H. subst. split; [constructor|]. intros o. split; intros X; apply first_says_nil in X; destruct X. }
  inversion F as [|? ? Ft Fr]; subst. cbn [juniper_select] in H.
  assert (Skip : forall s ts, (forall o, ~ juniper_rule today p t o) -> juniper_select c today s rest = Ok ts ->
    Forall (selected_ok c p) ts /\ forall o, first_says (rendered_rule p) ts o <-> first_says (juniper_rule today p) (t :: rest) o).
  { intros s us N E. destruct (IH _ _ Fr E) as (I1 & I2). split; [exact I1|]. intros o. rewrite first_says_cons, I2. split.
    - intros X. right. split; [exact X|]. intros a Y. destruct (N _ Y).
    - intros [X|(X & _)]; [destruct (N _ X)|exact X]. }
  destruct (match t_restrict_address_family t with Some f => _ | None => false end) eqn:Ef.
  { eapply Skip; [|exact H]. intros o (_ & _ & X & _).
    assert (R : opt_eq (t_restrict_address_family t) (p_family p)).
    { destruct (established_dec t) as [E|E]; [|apply X in E; apply E]. apply X in E. destruct E as (E & _).
      change (t_restrict_address_family t) with (t_restrict_address_family (set_destination_port [] t)). apply E. }
    destruct (t_restrict_address_family t) as [f|]; [|discriminate Ef]. cbn [opt_eq] in R.
    apply andb_true_iff in Ef. destruct Ef as (_ & Ef). apply negb_true_iff, String.eqb_neq in Ef. congruence. }
  cbv zeta in H. destruct (fix_term_length _ _ _ _ _) as [n|e] eqn:En; [|discriminate H]. cbn [bind] in H. apply fix_term_length_plain in En.
  destruct (str_in n seen); [discriminate H|].
  fold (unmarked t) in H. set (u := unmarked t) in *.
  destruct (fix_high_ports _ _ _ _) as [t'|e] eqn:Eh; [|discriminate H]. cbn [bind] in H.
  pose proof (fix_high_ports_spec _ _ _ _ _ Eh) as S. cbv zeta in S. destruct S as (_ & _ & S).
  assert (Sh : (~ wants_established u /\ t' = set_name n u) \/
               (wants_established u /\ t' = set_destination_port (collapse_port_list (t_destination_port u ++ [(1024, 65535)])) (set_name n u))).
  { destruct S as [(S1 & S2)|[(_ & S1 & _)|(S1 & _ & S2)]]; [left; split; [exact S1|exact S2]|discriminate S1|right; split; [exact S1|exact S2]]. }
  assert (Er : t_restrict_address_family t' = t_restrict_address_family t) by (destruct Sh as [(_ & ->)|(_ & ->)]; reflexivity).
  assert (Ee : t_expiration t' = t_expiration t) by (destruct Sh as [(_ & ->)|(_ & ->)]; reflexivity).
  assert (Ea : t_action t' = t_action t) by (destruct Sh as [(_ & ->)|(_ & ->)]; reflexivity).
  assert (Ec : term_comments t' = term_comments t) by (destruct Sh as [(_ & ->)|(_ & ->)]; reflexivity).
  assert (Em : term_matches t' p <-> stateless_matches u p).
  { unfold stateless_matches. destruct Sh as [(N & Et)|(Y & Et)].
    - rewrite Et. change (term_matches (set_name n u) p) with (term_matches u p). tauto.
    - pose proof (fix_high_ports_matches _ _ _ _ Eh Y p) as X.
      change (term_matches (set_destination_port [] (set_name n u)) p) with (term_matches (set_destination_port [] u) p) in X.
      change (t_destination_port (set_name n u)) with (t_destination_port u) in X. rewrite X. tauto. }
  unfold expired in H. rewrite Ee in H.
  destruct (match t_expiration t with Some d => d <=? today | None => false end) eqn:Ex.
  { eapply Skip; [|exact H]. intros o (X & _).
    unfold in_force in X. destruct (t_expiration t) as [d|]; [|discriminate Ex]. specialize (X d eq_refl). lia. }
  assert (Live : in_force today t) by (intros d E; rewrite E in Ex; lia).
  destruct (_ && _); [discriminate H|].
  destruct (juniper_init _) as [ps|e]; [|discriminate H]. cbn [bind] in H.
  destruct (juniper_select c today (n :: seen) rest) as [us|e] eqn:Es; [|discriminate H]. cbn [bind] in H. apply ok_inj in H. subst ts.
  destruct (IH _ _ Fr Es) as (I1 & I2). destruct (Ft Live) as (Nf & Kq).
  assert (Of : of_family c t).
  { intros f Ef'. rewrite Ef' in Ef. destruct f as [|x f]; [congruence|]. cbn [is_empty negb andb] in Ef. apply negb_false_iff, String.eqb_eq in Ef. exact Ef. }
  destruct (Kq Of) as (K & Qc). fold u in K. split.
  - constructor; [|exact I1]. unfold selected_ok. cbn [fst]. rewrite Ec, Er. split; [|split; [|exact Qc]].
    + destruct Sh as [(_ & ->)|(Y & ->)]; [apply juniper_name; [exact K|exact En]|].
      apply juniper_high_ports; [apply juniper_name; [exact K|exact En]| |].
      * change (t_protocol (set_name n u)) with (t_protocol u). rewrite (established_juniper _ _ K Y). discriminate.
      * intros r I. apply collapse_ports_ends in I. destruct I as ((a & Ia & <-) & (b & Ib & <-)).
        assert (B : forall x, In x (t_destination_port u ++ [(1024, 65535)]) -> 0 <= fst x /\ 0 <= snd x).
        { intros x I. apply in_app_or in I. destruct I as [I|[<-|[]]]; [apply (jt_ports _ _ K); rewrite app_assoc; apply in_or_app; right; exact I|simpl; lia]. }
        split; [apply B, Ia|apply B, Ib].
    + destruct (t_restrict_address_family t) as [f|]; [|exact I]. cbn [opt_eq].
      assert (Hf : is_empty f = false) by (destruct f; [congruence|reflexivity]). rewrite Hf in Ef. cbn [negb andb] in Ef.
      apply negb_false_iff, String.eqb_eq in Ef. congruence.
  - intros o. rewrite !first_says_cons, I2.
    assert (E : forall a, rendered_rule p (t', str_in "inactive" (t_option t)) a <-> juniper_rule today p t a).
    { intros a. unfold rendered_rule, juniper_rule. cbn [fst snd]. rewrite Em, Ea.
      destruct (str_in "inactive" (t_option t)) eqn:Ei.
      - apply str_in_iff in Ei. split; [intros (X & _); discriminate X|]. intros (_ & X & _). destruct (X Ei).
      - assert (Ni : ~ In "inactive" (t_option t)) by (intros I; apply str_in_iff in I; congruence).
        assert (Eu : stateless_matches u p <-> stateless_matches t p).
        { unfold stateless_matches, u, unmarked, wants_established. rewrite (remove_first_absent _ _ Ni).
          change (t_option (set_option (t_option t) t)) with (t_option t).
          change (term_matches (set_destination_port [] (set_option (t_option t) t)) p) with (term_matches (set_destination_port [] t) p).
          change (term_matches (set_option (t_option t) t) p) with (term_matches t p). reflexivity. }
        rewrite Eu. tauto. }
    rewrite E. apply or_iff_compat_l, and_iff_compat_l. split; intros X a Y; apply X, E, Y.
Qed.

(** ** The filter *)

Lemma same_cat_tail lines a b : same_words a b -> same_words (cat lines a) (cat lines b).
Proof. intros H. induction lines as [|l lines IH]; [exact H|]. apply same_line, IH. Qed.

Lemma header_quiet comments : quiet_comments comments ->
  Forall quiet (add_repository_tags "** " true true true false ++ ["**"] ++ flat_map (fun comment => map (fun l => append "** " l) (split_char newline comment)) comments).
Proof.
  intros Q. apply Forall_forall. intros x I. apply in_app_or in I. destruct I as [I|I].
  - cbn in I. destruct I as [<-|[<-|[<-|[]]]]; apply quiet_b; reflexivity.
  - apply in_app_or in I. destruct I as [[<-|[]]|I]; [apply quiet_b; reflexivity|].
    apply in_flat_map in I. destruct I as (cm & I & J). apply in_map_iff in J. destruct J as (l & <- & J). apply quiet_star. exact (Q _ _ I J).
Qed.
Theorem juniper_filter_decides c today name comments specific enhanced terms lines p :
  filter_family (jc_type c) -> Forall (juniper_listed_ok c today) terms -> plain_word name -> quiet_comments comments -> juniper_traffic c p ->
  juniper_filter c today name comments specific enhanced terms = Ok lines ->
  exists rules, statements lines = Some [Block ["firewall"] [Block ["family"; jc_type c] [Block ["replace:"; "filter"; name] rules]]] /\
    forall o, filter_decides (j_ver c) rules p o <-> first_says (juniper_rule today p) terms o.
Proof.
  intros T F Pn Qc Tr H. unfold juniper_filter, juniper_terms in H.
  destruct (juniper_select c today [] terms) as [ts|e] eqn:Es; [|discriminate H]. cbn [bind] in H.
  destruct (juniper_select_spec c today p Tr _ _ _ F Es) as (Fs & Sp).
  destruct (mapM _ ts) as [bs|e] eqn:Em; [|discriminate H]. cbn [bind] in H. apply mapM_forall2 in Em.
  assert (Bl : exists sts, renders (concat bs) (concat sts) /\ forallb stmt_ok (concat sts) = true /\
    Forall2 (fun ti b => (forall a, (exists y, In y b /\ term_says (j_ver c) p y a) <-> rendered_rule p ti a) /\ (forall a a', rendered_rule p ti a -> rendered_rule p ti a' -> a = a')) ts sts).
  { clear Sp Es H. induction Em as [|ti b ts bs E Em IH].
    - exists []. split; [apply renders_nil|]. split; [reflexivity|constructor].
    - inversion Fs as [|? ? (K & R & Q) Fr]; subst. destruct (IH Fr) as (sts & I1 & I2 & I3).
      destruct (juniper_init _) as [ps|e] eqn:Ei; [|discriminate E]. cbn [bind] in E.
      destruct (juniper_term c (fst ti) (snd ti) ps) as [(ls, ps')|e] eqn:Et; [|discriminate E]. cbn [bind] in E. apply ok_inj in E. subst b.
      destruct (term_exact _ _ _ _ _ _ p K Tr R Q Ei Et) as (st & S1 & S2 & S3).
      exists (st :: sts). cbn [concat]. split; [apply renders_app; assumption|]. split; [rewrite forallb_app, S2, I2; reflexivity|].
      constructor; [|exact I3]. split; [exact S3|]. intros a a' (_ & _ & w & E1 & V1) (_ & _ & w' & E2 & V2). congruence. }
  destruct Bl as (sts & B1 & B2 & B3).
  destruct (append_lines 0 (0, []) _) as [(ind, acc)|e] eqn:Eh; [|discriminate H]. cbn [bind fst snd] in H.
  destruct (append_lines_out _ _ _ _ _ _ Eh) as (outs & -> & Fo).
  destruct (append_lines 0 (ind, _) _) as [(ind', acc')|e] eqn:Et; [|discriminate H]. cbn [bind] in H.
  destruct (append_lines_out _ _ _ _ _ _ Et) as (tails & -> & Ftl).
  unfold config_lines in H. cbn [fst snd] in H. destruct (ind' =? 0); [|discriminate H]. apply ok_inj in H. subst lines.
  rewrite app_nil_r, <- rev_app_distr, <- rev_app_distr, rev_involutive, <- app_assoc.
  set (flags := (if specific then [Leaf ["interface-specific"]] else []) ++ (if enhanced then [Leaf ["enhanced-mode"]] else [])).
  exists (flags ++ concat sts). split.
  - set (flag_lines := (if specific then ["interface-specific;"] else []) ++ (if enhanced then ["enhanced-mode;"] else [])) in *.
    assert (Rf : renders flag_lines flags).
    { apply renders_app; [destruct specific|destruct enhanced]; try apply renders_nil; apply renders_line, chunk_lit; reflexivity. }
    set (cl := add_repository_tags "** " true true true false ++ ["**"] ++ flat_map (fun comment => map (fun l => append "** " l) (split_char newline comment)) comments).
    assert (Rb : renders (["firewall {"] ++ (["family " ++ jc_type c ++ " {"]%string ++ ((["/*"] ++ cl ++ ["*/"]) ++
        (["replace: filter " ++ name ++ " {"]%string ++ (flag_lines ++ concat bs) ++ ["}"])) ++ ["}"]) ++ ["}"])
        [Block ["firewall"] [Block ["family"; jc_type c] ([] ++ [Block ["replace:"; "filter"; name] (flags ++ concat sts)])]]).
    { apply (renders_block _ ["firewall"]); [apply chunk_lit; reflexivity|].
      apply (renders_block _ ["family"; jc_type c]); [destruct T as [->|[-> | ->]]; apply chunk_lit; reflexivity|].
      apply renders_app; [apply comment_block, header_quiet, Qc|].
      apply (renders_block _ ["replace:"; "filter"; name]).
      - change (["replace:"; "filter"; name] ++ ["{"]) with (["replace:"; "filter"] ++ [name; "{"]). apply chunk_app; [apply chunk_lit; reflexivity|].
        change (" {")%string with (" " ++ "{")%string. apply chunk_key; [exact Pn|]. apply chunk_lit; reflexivity.
      - apply renders_app; assumption. }
    unfold statements. change (text_of (outs ++ concat bs ++ tails)) with (cat (outs ++ concat bs ++ tails) "").
    rewrite !cat_app.
    assert (Sw : same_words (cat outs (cat (concat bs) (cat tails ""))) (cat (["firewall {"; append "family " (append (jc_type c) " {"); "/*"] ++ cl ++ ["*/"; append "replace: filter " (append name " {")] ++ flag_lines) (cat (concat bs) (cat tails "")))).
    { apply same_cat; [|intros m; reflexivity]. replace (["firewall {"; append "family " (append (jc_type c) " {"); "/*"] ++ cl ++ ["*/"; append "replace: filter " (append name " {")] ++ flag_lines)
        with (["firewall {"; append "family " (append (jc_type c) " {"); "/*"] ++ add_repository_tags "** " true true true false ++ ["**"] ++
          flat_map (fun comment => map (fun l => append "** " l) (split_char newline comment)) comments ++ ["*/"; append "replace: filter " (append name " {")] ++ flag_lines); [exact Fo|].
      unfold cl. rewrite <- !app_assoc. reflexivity. }
    rewrite Sw. rewrite <- (cat_app (concat bs)), <- cat_app.
    assert (Tl : tokens false "" (cat ((["firewall {"; append "family " (append (jc_type c) " {"); "/*"] ++ cl ++ ["*/"; append "replace: filter " (append name " {")] ++ flag_lines) ++ concat bs ++ tails) "")
      = flat_map stmt_toks [Block ["firewall"] [Block ["family"; jc_type c] ([] ++ [Block ["replace:"; "filter"; name] (flags ++ concat sts)])]] ++ tokens false "" "").
    { rewrite <- (Rb ""). 
      rewrite app_assoc.
      assert (X : forall A m, tokens m "" (cat (A ++ tails) "") = tokens m "" (cat (A ++ ["}"; "}"; "}"]) "")).
      { intros A m. rewrite !cat_app. apply same_cat_tail. apply same_cat; [exact Ftl|intros k; reflexivity]. }
      rewrite X. f_equal. f_equal. rewrite <- !app_assoc. reflexivity. }
    rewrite Tl. rewrite read_stmts; [reflexivity|].
    cbn [app forallb stmt_ok]. rewrite forallb_app, B2. pose proof (plain_ok _ Pn) as X. rewrite X.
    unfold flags. destruct T as [->|[-> | ->]], specific, enhanced; reflexivity.
  - intros o. unfold filter_decides. rewrite first_says_app.
    assert (Nf : forall y a, In y flags -> ~ term_says (j_ver c) p y a).
    { intros y a I. unfold flags in I. destruct specific, enhanced; cbn in I; repeat (destruct I as [<-|I]; [exact (fun X => X)|]); destruct I. }
    rewrite (first_says_blocks _ _ _ _ o B3), Sp. split.
    + intros [(b & x & a & E & S & _)|(X & _)]; [|exact X]. exfalso. apply (Nf x o); [rewrite E; apply in_or_app; right; left; reflexivity|exact S].
    + intros X. right. split; [exact X|]. intros y a I S. destruct (Nf _ _ I S).
Qed.

(** ** Expired terms *)

Lemma juniper_select_expired c today : forall terms seen seen' ts, incl seen' seen ->
  juniper_select c today seen terms = Ok ts ->
  juniper_select c today seen' (filter (fun t => negb (expired today t)) terms) = Ok ts.
Proof.
  induction terms as [|t rest IH]; intros seen seen' ts Hi H; [exact H|].
  assert (Go : expired today t = true -> forall s, incl seen' s -> juniper_select c today s rest = Ok ts ->
    juniper_select c today seen' (filter (fun t => negb (expired today t)) (t :: rest)) = Ok ts).
  { intros X s J Hs. cbn [filter]. rewrite X. cbn [negb]. exact (IH s seen' ts J Hs). }
  cbn [juniper_select] in H.
  destruct (match t_restrict_address_family t with Some f => _ | None => false end) eqn:Ef.
  { destruct (expired today t) eqn:X; [exact (Go eq_refl seen Hi H)|]. cbn [filter]. rewrite X. cbn [negb juniper_select]. rewrite Ef. exact (IH _ _ _ Hi H). }
  cbv zeta in H. destruct (fix_term_length _ _ _ _ _) as [n|e] eqn:El; [|discriminate H]. cbn [bind] in H.
  destruct (str_in n seen) eqn:En; [discriminate H|].
  assert (En' : str_in n seen' = false) by (apply str_in_false; apply str_in_false in En; auto).
  destruct (fix_high_ports _ _ _ _) as [t'|e] eqn:Eh; [|discriminate H]. cbn [bind] in H.
  pose proof (fix_high_expiration _ _ _ _ _ Eh) as Ee.
  change (t_expiration (set_name n (set_option (remove_first "inactive" (t_option t)) t))) with (t_expiration t) in Ee.
  assert (Ex : expired today t' = expired today t) by (unfold expired; rewrite Ee; reflexivity).
  destruct (expired today t) eqn:X.
  { rewrite Ex in H. apply (Go eq_refl (n :: seen)); [intros y I; right; auto|exact H]. }
  cbn [filter]. rewrite X. cbn [negb juniper_select]. rewrite Ef. cbv zeta. rewrite El. cbn [bind]. rewrite En', Eh. cbn [bind]. rewrite Ex in H |- *.
  destruct (_ && _); [discriminate H|]. destruct (juniper_init _) as [ps|e]; [|discriminate H]. cbn [bind] in H |- *.
  destruct (juniper_select c today (n :: seen) rest) as [ts0|e] eqn:Es; [|discriminate H].
  rewrite (IH (n :: seen) (n :: seen') ts0); [exact H| |exact Es]. intros y [<-|I]; [left; reflexivity|right; auto].
Qed.
Lemma juniper_filter_expired c today name comments specific enhanced terms lines :
  juniper_filter c today name comments specific enhanced terms = Ok lines ->
  juniper_filter c today name comments specific enhanced (filter (fun t => negb (expired today t)) terms) = Ok lines.
Proof.
  unfold juniper_filter, juniper_terms. intros H. destruct (juniper_select c today [] terms) as [ts|e] eqn:Es; [|discriminate H].
  rewrite (juniper_select_expired _ _ _ _ [] _ (incl_refl _) Es). exact H.
Qed.

(** ** Comments *)

(** The lines of a term, with the lines of its comment given. *)
Definition term_with (comment : list string) (c : juniper_cfg) (t : term) (inactive : bool) (ps : list pval) : res (list string * list pval) :=
  if (some (t_platform t) && negb (str_in "juniper" (t_platform t)))
     || (some (t_platform_exclude t) && str_in "juniper" (t_platform_exclude t)) then Ok ([], ps)
  else
    let ps' := if String.eqb (jc_type c) "inet6" then remove_pval "icmp" ps
               else if String.eqb (jc_type c) "inet" then remove_pval "icmp6" (remove_pval "icmpv6" ps) else ps in
    if negb (some ps') && some ps then Ok ([], ps')
    else
      if some (t_verbatim t) then
        let! cfg := append_lines 12 (12, []) comment in
        let! ls := config_lines 12 (fst cfg, rev (map snd (filter (fun v => String.eqb (fst v) "juniper") (t_verbatim t))) ++ snd cfg) in
        Ok (ls, ps')
      else
        let! (extra, from) := juniper_options c ps' ([], []) (t_option t) in
        let head := comment ++ [append (if inactive then "inactive:" else "") (append " term " (append (t_name t) " {"))] in
        if given (t_filter_term t) then
          let! cfg := append_lines 12 (12, []) (head ++ [append "filter " (append (match t_filter_term t with Some f => f | None => "" end) ";"); "}"%string]) in
          let! ls := config_lines 12 cfg in Ok (ls, ps')
        else
          let! fr := (if has_match_criteria t ps' then from_lines c t ps' from else Ok (Some [])) in
          match fr with
          | None => Ok ([], ps')
          | Some fr =>
              let! th := then_lines c t extra in
              let! cfg := append_lines 12 (12, []) (head ++ fr ++ th ++ ["}"%string]) in
              let! ls := config_lines 12 cfg in
              Ok (ls, if has_match_criteria t ps' then replace_first "icmpv6" "icmp6" ps' else ps')
          end.
Lemma term_with_self c t inactive ps : juniper_term c t inactive ps = term_with (term_comment_lines c t) c t inactive ps.
Proof. reflexivity. Qed.
Lemma term_with_other comment c t cs o inactive ps : term_with comment c (set_comment cs (set_owner o t)) inactive ps = term_with comment c t inactive ps.
Proof. reflexivity. Qed.
Lemma config_lines_words init c0 lines ind acc ls : append_lines init (c0, []) lines = Ok (ind, acc) -> config_lines init (ind, acc) = Ok ls ->
  same_words (cat ls "") (cat lines "").
Proof.
  intros H E. destruct (append_lines_out _ _ _ _ _ _ H) as (outs & -> & F). unfold config_lines in E. cbn [fst snd] in E.
  destruct (ind =? init); [|discriminate E]. apply ok_inj in E. subst ls. rewrite app_nil_r, rev_involutive. apply same_cat; [exact F|intros m; reflexivity].
Qed.
Lemma comments_inert c t inactive ps cm cm' l l' q q' : renders cm [] -> renders cm' [] ->
  term_with cm c t inactive ps = Ok (l, q) -> term_with cm' c t inactive ps = Ok (l', q') -> statements l = statements l'.
Proof.
  intros R R' H H'. unfold term_with in H, H'.
  assert (Same : forall x, Ok ([], x) = Ok (l, q) -> Ok ([], x) = Ok (l', q') -> statements l = statements l').
  { intros x A B. apply ok_inj in A, B. apply (f_equal fst) in A, B. cbn [fst] in A, B. subst. reflexivity. }
  destruct (_ || _); [exact (Same _ H H')|]. cbv zeta in H, H'.
  set (qs := if String.eqb (jc_type c) "inet6" then _ else _) in *.
  destruct (negb (some qs) && some ps); [exact (Same _ H H')|].
  assert (Go : forall lines x x',
    (let! cfg := append_lines 12 (12, []) (cm ++ lines) in let! ls := config_lines 12 cfg in Ok (ls, x)) = Ok (l, q) ->
    (let! cfg := append_lines 12 (12, []) (cm' ++ lines) in let! ls := config_lines 12 cfg in Ok (ls, x')) = Ok (l', q') -> statements l = statements l').
  { intros lines x x' A A'. destruct (append_lines 12 (12, []) (cm ++ lines)) as [(i, a)|e] eqn:E; [|discriminate A]. cbn [bind] in A.
    destruct (append_lines 12 (12, []) (cm' ++ lines)) as [(i', a')|e] eqn:E'; [|discriminate A']. cbn [bind] in A'.
    destruct (config_lines 12 (i, a)) as [ls|e] eqn:C; [|discriminate A]. destruct (config_lines 12 (i', a')) as [ls'|e] eqn:C'; [|discriminate A'].
    cbn [bind] in A, A'. apply ok_inj in A, A'. apply (f_equal fst) in A, A'. cbn [fst] in A, A'. subst l l'.
    pose proof (config_lines_words _ _ _ _ _ _ E C false) as W. pose proof (config_lines_words _ _ _ _ _ _ E' C' false) as W'.
    unfold statements. change (text_of ls) with (cat ls ""). change (text_of ls') with (cat ls' ""). rewrite W, W', !cat_app, R, R'. reflexivity. }
  destruct (some (t_verbatim t)).
  { destruct (append_lines 12 (12, []) cm) as [(i, a)|e] eqn:E; [|discriminate H]. cbn [bind fst snd] in H.
    destruct (append_lines 12 (12, []) cm') as [(i', a')|e] eqn:E'; [|discriminate H']. cbn [bind fst snd] in H'.
    destruct (append_lines_out _ _ _ _ _ _ E) as (outs & -> & F). destruct (append_lines_out _ _ _ _ _ _ E') as (outs' & -> & F').
    unfold config_lines in H, H'. cbn [fst snd] in H, H'. destruct (i =? 12); [|discriminate H]. destruct (i' =? 12); [|discriminate H'].
    cbn [bind] in H, H'. apply ok_inj in H, H'. apply (f_equal fst) in H, H'. cbn [fst] in H, H'. subst l l'.
    rewrite !app_nil_r, <- !rev_app_distr, !rev_involutive. unfold statements.
    set (vs := map snd _). change (text_of (outs ++ vs)) with (cat (outs ++ vs) ""). change (text_of (outs' ++ vs)) with (cat (outs' ++ vs) "").
    rewrite !cat_app, (same_cat _ _ F (cat vs "") (cat vs "") (fun m => eq_refl) false), (same_cat _ _ F' (cat vs "") (cat vs "") (fun m => eq_refl) false), R, R'. reflexivity. }
  destruct (juniper_options c qs ([], []) (t_option t)) as [(extra, from)|e]; [|discriminate H]. cbn [bind] in H, H'.
  destruct (given (t_filter_term t)).
  { rewrite <- app_assoc in H, H'. exact (Go _ _ _ H H'). }
  destruct (if has_match_criteria t qs then _ else _) as [[fr|]|e]; [| |discriminate H]; cbn [bind] in H, H'; [|exact (Same _ H H')].
  destruct (then_lines c t extra) as [th|e]; [|discriminate H]. cbn [bind] in H, H'. rewrite <- app_assoc in H, H'. exact (Go _ _ _ H H').
Qed.
Theorem juniper_comments_inert c t cs o inactive ps l l' q q' : quiet_comments (term_comments t) -> quiet_comments (term_comments (set_comment cs (set_owner o t))) ->
  juniper_term c t inactive ps = Ok (l, q) -> juniper_term c (set_comment cs (set_owner o t)) inactive ps = Ok (l', q') -> statements l = statements l'.
Proof.
  intros Q Q' H H'. rewrite term_with_self in H, H'. rewrite term_with_other in H'.
  eapply comments_inert; [| |exact H|exact H']; apply term_comment_silent; assumption.
Qed.
