(** A whole Juniper configuration has the filters the policy asks for, and they decide as the policy does. *)
From Coq Require Import Lia ZifyBool ZifyNat.
From Verif Require Import SpecJunPolicy SpecSum BaseFacts PyStrFacts PortProofs GenProofs GenProofs2 CiscoProofs CiscoProofs2 CiscoTerm CiscoAcl
  JuniperText JuniperProofs JuniperTerm JuniperFilter.
Local Open Scope string_scope.
Local Open Scope list_scope.
Local Open Scope Z_scope.

(** ** One filter, behind what is there already *)

Definition filter_block (family name : string) (rules : list stmt) : stmt :=
  Block ["firewall"] [Block ["family"; family] [Block ["replace:"; "filter"; name] rules]].
Definition header_lines (c : juniper_cfg) (name : string) (comments : list string) (specific enhanced : bool) : list string :=
  ["firewall {"; append "family " (append (jc_type c) " {"); "/*"]%string
     ++ add_repository_tags "** " true true true false ++ ["**"%string]
     ++ flat_map (fun comment => map (fun l => append "** " l) (split_char newline comment)) comments
     ++ ["*/"; append "replace: filter " (append name " {")]%string
     ++ (if specific then ["interface-specific;"%string] else [])
     ++ (if enhanced then ["enhanced-mode;"%string] else []).
Lemma filter_behind c today p name comments specific enhanced terms ts bs i acc ind acc1 ind' acc2 :
  filter_family (jc_type c) -> plain_word name -> quiet_comments comments -> juniper_traffic c p ->
  Forall (selected_ok c p) ts -> (forall o, first_says (rendered_rule p) ts o <-> first_says (juniper_rule today p) terms o) ->
  Forall2 (fun ti b => exists ps ps', juniper_init (map PName (t_protocol (fst ti))) = Ok ps /\ juniper_term c (fst ti) (snd ti) ps = Ok (b, ps')) ts bs ->
  append_lines 0 (i, acc) (header_lines c name comments specific enhanced) = Ok (ind, acc1) ->
  append_lines 0 (ind, rev (concat bs) ++ acc1) ["}"; "}"; "}"] = Ok (ind', acc2) ->
  exists lines rules, acc2 = rev lines ++ acc /\ renders lines [filter_block (jc_type c) name rules] /\ stmt_ok (filter_block (jc_type c) name rules) = true /\
    forall o, filter_decides (j_ver c) rules p o <-> first_says (juniper_rule today p) terms o.
Proof.
  intros T Pn Qc Tr Fs Sp Em Eh Et.
  assert (Bl : exists sts, renders (concat bs) (concat sts) /\ forallb stmt_ok (concat sts) = true /\
    Forall2 (fun ti b => (forall a, (exists y, In y b /\ term_says (j_ver c) p y a) <-> rendered_rule p ti a) /\ (forall a a', rendered_rule p ti a -> rendered_rule p ti a' -> a = a')) ts sts).
  { clear Sp Eh Et. induction Em as [|ti b ts bs (ps & ps' & Ei & Et) Em IH].
    - exists []. split; [apply renders_nil|]. split; [reflexivity|constructor].
    - inversion Fs as [|? ? (K & R & Q) Fr]; subst. destruct (IH Fr) as (sts & I1 & I2 & I3).
      destruct (term_exact _ _ _ _ _ _ p K Tr R Q Ei Et) as (st & S1 & S2 & S3).
      exists (st :: sts). cbn [concat]. split; [apply renders_app; assumption|]. split; [rewrite forallb_app, S2, I2; reflexivity|].
      constructor; [|exact I3]. split; [exact S3|]. intros a a' (_ & _ & w & E1 & V1) (_ & _ & w' & E2 & V2). congruence. }
  destruct Bl as (sts & B1 & B2 & B3).
  destruct (append_lines_out _ _ _ _ _ _ Eh) as (outs & -> & Fo). unfold header_lines in Fo.
  destruct (append_lines_out _ _ _ _ _ _ Et) as (tails & -> & Ftl).
  set (flags := (if specific then [Leaf ["interface-specific"]] else []) ++ (if enhanced then [Leaf ["enhanced-mode"]] else [])).
  exists (outs ++ concat bs ++ tails), (flags ++ concat sts). split; [rewrite !rev_app_distr, <- !app_assoc; reflexivity|].
  set (flag_lines := (if specific then ["interface-specific;"] else []) ++ (if enhanced then ["enhanced-mode;"] else [])) in *.
  assert (Rf : renders flag_lines flags).
  { apply renders_app; [destruct specific|destruct enhanced]; try apply renders_nil; apply renders_line, chunk_lit; reflexivity. }
  set (cl := add_repository_tags "** " true true true false ++ ["**"] ++ flat_map (fun comment => map (fun l => append "** " l) (split_char newline comment)) comments).
  assert (Rb : renders (["firewall {"] ++ (["family " ++ jc_type c ++ " {"]%string ++ ((["/*"] ++ cl ++ ["*/"]) ++
      (["replace: filter " ++ name ++ " {"]%string ++ (flag_lines ++ concat bs) ++ ["}"])) ++ ["}"]) ++ ["}"])
      [Block ["firewall"] [Block ["family"; jc_type c] ([] ++ [Block ["replace:"; "filter"; name] (flags ++ concat sts)])]]).
  { apply (renders_block _ ["firewall"]); [apply chunk_lit; reflexivity|].
    apply (renders_block _ ["family"; jc_type c]); [destruct T as [->|[-> | ->]]; apply chunk_lit; reflexivity|].
    apply renders_app; [apply comment_block, header_quiet, Qc|].
    apply (renders_block _ ["replace:"; "filter"; name]).
    - change (["replace:"; "filter"; name] ++ ["{"]) with (["replace:"; "filter"] ++ [name; "{"]). apply chunk_app; [apply chunk_lit; reflexivity|].
      change (" {")%string with (" " ++ "{")%string. apply chunk_key; [exact Pn|]. apply chunk_lit; reflexivity.
    - apply renders_app; assumption. }
  split; [|split].
  - intros rest. unfold filter_block. change [Block ["replace:"; "filter"; name] (flags ++ concat sts)] with ([] ++ [Block ["replace:"; "filter"; name] (flags ++ concat sts)]).
    rewrite <- (Rb rest). rewrite !cat_app.
    assert (Sw : same_words (cat outs (cat (concat bs) (cat tails rest))) (cat (["firewall {"; append "family " (append (jc_type c) " {"); "/*"] ++ cl ++ ["*/"; append "replace: filter " (append name " {")] ++ flag_lines) (cat (concat bs) (cat ["}"; "}"; "}"] rest)))).
    { apply same_cat.
      - replace (["firewall {"; append "family " (append (jc_type c) " {"); "/*"] ++ cl ++ ["*/"; append "replace: filter " (append name " {")] ++ flag_lines)
          with (["firewall {"; append "family " (append (jc_type c) " {"); "/*"] ++ add_repository_tags "** " true true true false ++ ["**"] ++
            flat_map (fun comment => map (fun l => append "** " l) (split_char newline comment)) comments ++ ["*/"; append "replace: filter " (append name " {")] ++ flag_lines); [exact Fo|].
        unfold cl. rewrite <- !app_assoc. reflexivity.
      - apply same_cat_tail. apply same_cat; [exact Ftl|intros m; reflexivity]. }
    rewrite Sw. rewrite <- !cat_app. f_equal. rewrite <- !app_assoc. reflexivity.
  - unfold filter_block. cbn [forallb stmt_ok]. rewrite forallb_app, B2. pose proof (plain_ok _ Pn) as X. rewrite X.
    unfold flags. destruct T as [->|[-> | ->]], specific, enhanced; reflexivity.
  - intros o. unfold filter_decides. rewrite first_says_app.
    assert (Nf : forall y a, In y flags -> ~ term_says (j_ver c) p y a).
    { intros y a I. unfold flags in I. destruct specific, enhanced; cbn in I; repeat (destruct I as [<-|I]; [exact (fun X => X)|]); destruct I. }
    rewrite (first_says_blocks _ _ _ _ o B3), Sp. split.
    + intros [(b & x & a & E & S & _)|(X & _)]; [|exact X]. exfalso. apply (Nf x o); [rewrite E; apply in_or_app; right; left; reflexivity|exact S].
    + intros X. right. split; [exact X|]. intros y a I S. destruct (Nf _ _ I S).
Qed.
(** What the lines say is determined. *)
Lemma renders_same lines a b : renders lines a -> renders lines b -> forallb stmt_ok a = true -> forallb stmt_ok b = true -> a = b.
Proof.
  intros A B Oa Ob. specialize (A ""). specialize (B ""). rewrite A in B.
  pose proof (read_stmts a Oa (SpecJuniper.tokens false "" "") [] []) as X. pose proof (read_stmts b Ob (SpecJuniper.tokens false "" "") [] []) as Y. rewrite B, Y in X.
  cbn [SpecJuniper.tokens flush is_empty read] in X. rewrite !app_nil_r, !rev_involutive in X. congruence.
Qed.

(** ** Passes over the objects *)

Inductive Forall3 {A B C} (R : A -> B -> C -> Prop) : list A -> list B -> list C -> Prop :=
| F3nil : Forall3 R [] [] []
| F3cons : forall a b c la lb lc, R a b c -> Forall3 R la lb lc -> Forall3 R (a :: la) (b :: lb) (c :: lc).
Definition restricted (c : juniper_cfg) (t : term) : bool :=
  match t_restrict_address_family t with
  | Some f => negb (is_empty f) && negb (String.eqb f (jc_type c))
  | None => false end.
Definition passed (c : juniper_cfg) (today : Z) (o o' : jobj) (e : option term) : Prop :=
  (restricted c (jo_term o) = true /\ o' = o /\ e = None) \/
  (restricted c (jo_term o) = false /\ jo_term o' = unmarked (jo_term o) /\ jo_inactive o' = jo_inactive o || str_in "inactive" (t_option (jo_term o)) /\
   ((e = None /\ expired today (jo_term o) = true /\ jo_protocol o' = jo_protocol o) \/
    (exists t', e = Some t' /\ expired today (jo_term o) = false /\ juniper_init (jo_protocol o) = Ok (jo_protocol o') /\
       t_protocol t' = t_protocol (jo_term o)))).
Lemma set_name_same t : set_name (t_name t) t = t.
Proof. destruct t. reflexivity. Qed.
Lemma set_protocol_same t : set_protocol (t_protocol t) t = t.
Proof. destruct t. reflexivity. Qed.
Lemma fix_high_ports_expires g t af all t' today : fix_high_ports g t af all = Ok t' -> expired today t' = expired today t.
Proof.
  intros H. pose proof (fix_high_ports_spec _ _ _ _ _ H) as S. cbv zeta in S. destruct S as (_ & _ & S).
  destruct S as [(_ & ->)|[(_ & _ & _ & ->)|(_ & _ & ->)]]; reflexivity.
Qed.
Lemma pass_spec c today : forall os seen os' l, jun_pass c today seen os = Ok (os', l) -> Forall3 (passed c today) os os' l.
Proof.
  induction os as [|o os IH]; intros seen os' l H; cbn [jun_pass] in H.
  { apply ok_inj in H. injection H as <- <-. constructor. }
  fold (restricted c (jo_term o)) in H. destruct (restricted c (jo_term o)) eqn:Er.
  { destruct (jun_pass c today seen os) as [(os1, l1)|e] eqn:E; [|discriminate H]. cbn [bind] in H. apply ok_inj in H. injection H as <- <-.
    constructor; [left; auto|exact (IH _ _ _ E)]. }
  cbv zeta in H. destruct (fix_term_length _ _ _ _ _) as [n|e] eqn:En; [|discriminate H]. cbn [bind] in H. apply fix_term_length_plain in En. subst n.
  destruct (str_in _ seen); [discriminate H|]. fold (unmarked (jo_term o)) in H.
  change (t_name (jo_term o)) with (t_name (unmarked (jo_term o))) in H. rewrite set_name_same in H.
  destruct (fix_high_ports _ _ _ _) as [t'|e] eqn:Eh; [|discriminate H]. cbn [bind] in H.
  change (expired today (set_protocol (t_protocol (unmarked (jo_term o))) t')) with (expired today t') in H. rewrite (fix_high_ports_expires _ _ _ _ _ today Eh) in H.
  change (expired today (set_protocol (map pval_text (jo_protocol o)) (unmarked (jo_term o)))) with (expired today (jo_term o)) in H.
  destruct (expired today (jo_term o)) eqn:Ex.
  { destruct (jun_pass c today _ os) as [(os1, l1)|e] eqn:E; [|discriminate H]. cbn [bind] in H. apply ok_inj in H. injection H as <- <-.
    constructor; [|exact (IH _ _ _ E)]. right. split; [exact Er|]. split; [reflexivity|]. split; [reflexivity|]. left. auto. }
  destruct (_ && _); [discriminate H|]. destruct (juniper_init _) as [ps|e] eqn:Ei; [|discriminate H]. cbn [bind] in H.
  destruct (jun_pass c today _ os) as [(os1, l1)|e] eqn:E; [|discriminate H]. cbn [bind] in H. apply ok_inj in H. injection H as <- <-.
  constructor; [|exact (IH _ _ _ E)]. right. split; [exact Er|]. split; [reflexivity|]. split; [reflexivity|]. right.
  eexists. split; [reflexivity|]. split; [exact Ex|]. split; [exact Ei|]. reflexivity.
Qed.

(** ** Objects that stand for a term of the policy *)

(** No later pass takes anything more away. *)
Definition again (t : term) : Prop := ~ In "inactive" (t_option (unmarked t)) /\ ~ In "hopopt" (t_protocol t).
Definition stands (o : jobj) (t : term) : Prop :=
  (jo_term o = t /\ jo_inactive o = false /\ jo_protocol o = map PName (t_protocol t)) \/
  (again t /\ ((jo_term o = t /\ jo_inactive o = false) \/ (jo_term o = unmarked t /\ jo_inactive o = str_in "inactive" (t_option t))) /\
   (jo_protocol o = map PName (t_protocol t) \/ juniper_init (map PName (t_protocol t)) = Ok (jo_protocol o))).
Lemma unmarked_twice t : ~ In "inactive" (t_option (unmarked t)) -> unmarked (unmarked t) = unmarked t.
Proof.
  intros N. unfold unmarked at 1. rewrite (remove_first_absent _ _ N). destruct t. reflexivity.
Qed.
Lemma absent_str x l : ~ In x l -> str_in x l = false.
Proof. intros N. destruct (str_in x l) eqn:E; [|reflexivity]. apply str_in_iff in E. destruct (N E). Qed.
Definition four (p : pval) : pval := if pval_is "ipip" p then PNum 4 else p.
Lemma replace_absent a b l : existsb (pval_is a) l = false -> replace_first a b l = l.
Proof.
  induction l as [|p l IH]; intros H; [reflexivity|]. cbn [existsb] in H. apply orb_false_iff in H. destruct H as (H1 & H2). cbn [replace_first]. rewrite H1, IH by exact H2. reflexivity.
Qed.
Lemma remove_absent a l : existsb (pval_is a) l = false -> remove_pval a l = l.
Proof.
  induction l as [|p l IH]; intros H; [reflexivity|]. cbn [existsb] in H. apply orb_false_iff in H. destruct H as (H1 & H2). cbn [remove_pval]. rewrite H1, IH by exact H2. reflexivity.
Qed.
Lemma four_absent a l : ~ In a l -> existsb (pval_is a) (map four (map PName l)) = false.
Proof.
  intros N. apply not_true_is_false. intros X. apply existsb_exists in X. destruct X as (p & I & E). apply in_map_iff in I. destruct I as (q & <- & I).
  apply in_map_iff in I. destruct I as (s & <- & I). unfold four, pval_is in E. destruct (String.eqb s "ipip"); [discriminate E|]. apply String.eqb_eq in E. subst. exact (N I).
Qed.
Lemma init_four l ps : ~ In "hopopt" l -> juniper_init (map PName l) = Ok ps -> ps = map four (map PName l).
Proof.
  intros N H. unfold juniper_init in H. destruct (forallb _ _); [|discriminate H]. apply ok_inj in H. rewrite <- H. apply (replace_absent _ _ _ (four_absent _ _ N)).
Qed.
Lemma init_twice l ps : ~ In "hopopt" l -> juniper_init (map PName l) = Ok ps -> juniper_init ps = Ok ps.
Proof.
  intros N H. pose proof (init_four _ _ N H) as E. unfold juniper_init in H. destruct (forallb _ (map PName l)) eqn:F; [|discriminate H]. clear H.
  unfold juniper_init.
  match goal with |- (if forallb ?f ps then _ else _) = _ => assert (G : forallb f ps = true) end.
  { rewrite E. apply forallb_forall. intros p I. apply in_map_iff in I. destruct I as (q & <- & I). rewrite forallb_forall in F. specialize (F q I). unfold four.
    destruct (pval_is "ipip" q); [vm_compute; reflexivity|exact F]. }
  rewrite G. f_equal.
  assert (M : map (fun p => if pval_is "ipip" p then PNum 4 else p) ps = ps).
  { rewrite E. rewrite map_map. apply map_ext. intros p. unfold four. destruct (pval_is "ipip" p) eqn:X; [reflexivity|]. rewrite X. reflexivity. }
  rewrite M. rewrite E. apply replace_absent, four_absent, N.
Qed.
Lemma high_ports_texts t af texts t' : (texts = t_protocol t \/ texts = map pval_text (map four (map PName (t_protocol t)))) ->
  fix_high_ports juniper_gen (set_protocol texts t) af false = Ok t' ->
  fix_high_ports juniper_gen t af false = Ok (set_protocol (t_protocol t) t').
Proof.
  intros [-> | ->] H; [rewrite set_protocol_same in H; rewrite H; f_equal; pose proof (fix_high_ports_spec _ _ _ _ _ H) as S; cbv zeta in S; destruct S as (_ & _ & S);
    destruct S as [(_ & ->)|[(_ & _ & _ & ->)|(_ & _ & ->)]]; destruct t; reflexivity|].
  unfold fix_high_ports in *. change (t_protocol (set_protocol ?x t)) with x in H. change (t_option (set_protocol ?x t)) with (t_option t) in H.
  change (t_destination_port (set_protocol ?x t)) with (t_destination_port t) in H.
  destruct (negb (str_in af (supported_af juniper_gen))); [discriminate H|]. cbn [assoc filter_blacklist juniper_gen] in *.
  destruct (existsb (starts_with "established") (t_option t)).
  - assert (X : forallb (fun p => str_in p ["tcp"; "udp"]) (if some (map pval_text (map four (map PName (t_protocol t)))) then map pval_text (map four (map PName (t_protocol t))) else [default_protocol juniper_gen]) =
      forallb (fun p => str_in p ["tcp"; "udp"]) (if some (t_protocol t) then t_protocol t else [default_protocol juniper_gen])).
    { destruct (t_protocol t) as [|q r]; [reflexivity|]. cbn [map some]. set (l := q :: r). change (pval_text (four (PName q)) :: map pval_text (map four (map PName r))) with (map pval_text (map four (map PName l))).
      clearbody l. induction l as [|x l IH]; [reflexivity|]. cbn [map forallb]. rewrite IH. f_equal. unfold four, pval_is.
      destruct (String.eqb x "ipip") eqn:E; [apply String.eqb_eq in E; subst; reflexivity|reflexivity]. }
    rewrite X in H. destruct (forallb _ _); [|discriminate H]. apply ok_inj in H. subst t'. destruct t. reflexivity.
  - apply ok_inj in H. subst t'. destruct t. reflexivity.
Qed.
Lemma texts_of_names l : map pval_text (map PName l) = l.
Proof. rewrite map_map. rewrite <- (map_id l) at 2. apply map_ext. reflexivity. Qed.
Lemma stands_texts o t : stands o t -> map pval_text (jo_protocol o) = t_protocol t \/ map pval_text (jo_protocol o) = map pval_text (map four (map PName (t_protocol t))).
Proof.
  intros [(_ & _ & ->)|((_ & N) & _ & [-> |H])]; [left; apply texts_of_names|left; apply texts_of_names|]. right. rewrite (init_four _ _ N H). reflexivity.
Qed.
Lemma stands_facts o t : stands o t -> True /\ t_name (jo_term o) = t_name t /\ t_restrict_address_family (jo_term o) = t_restrict_address_family t /\
  t_expiration (jo_term o) = t_expiration t /\ t_protocol (jo_term o) = t_protocol t /\ unmarked (jo_term o) = unmarked t /\
  jo_inactive o || str_in "inactive" (t_option (jo_term o)) = str_in "inactive" (t_option t) /\
  juniper_init (jo_protocol o) = juniper_init (map PName (t_protocol t)).
Proof.
  intros [(-> & -> & ->)|((A & N) & T & P)]; [repeat split|].
  assert (E : juniper_init (jo_protocol o) = juniper_init (map PName (t_protocol t))) by (destruct P as [-> |P]; [reflexivity|rewrite P; exact (init_twice _ _ N P)]).
  destruct T as [(-> & ->)|(-> & ->)]; [repeat split; exact E|]. rewrite (absent_str _ _ A), orb_false_r. rewrite (unmarked_twice _ A). repeat split. exact E.
Qed.
(** The terms that are rendered, with their marks. *)
Fixpoint picked (os : list jobj) (l : list (option term)) : list (term * bool) :=
  match os, l with
  | o :: os, Some t :: l => (t, jo_inactive o) :: picked os l
  | _ :: os, None :: l => picked os l
  | _, _ => []
  end.
Lemma pass_select c today : forall os terms, Forall2 stands os terms -> forall seen os' l, jun_pass c today seen os = Ok (os', l) ->
  juniper_select c today seen terms = Ok (picked os' l).
Proof.
  induction 1 as [|o t os terms S F IH]; intros seen os' l H; cbn [jun_pass] in H.
  { apply ok_inj in H. injection H as <- <-. reflexivity. }
  destruct (stands_facts _ _ S) as (_ & F1 & F2 & F3 & F4 & F5 & F6 & F7). rewrite F1, F2, F6, F7 in H. cbn [juniper_select].
  destruct (match t_restrict_address_family t with Some f => _ | None => false end).
  { destruct (jun_pass c today seen os) as [(os1, l1)|e] eqn:E; [|discriminate H]. cbn [bind] in H. apply ok_inj in H. injection H as <- <-.
    cbn [picked]. exact (IH _ _ _ E). }
  cbv zeta in *. destruct (fix_term_length _ _ _ _ _) as [n|e] eqn:En; [|discriminate H]. cbn [bind] in *.
  destruct (str_in _ seen); [discriminate H|]. fold (unmarked (jo_term o)) in H. fold (unmarked t). rewrite F5 in H.
  destruct (fix_high_ports juniper_gen (set_protocol _ _) _ _) as [t1|e] eqn:Eh; [|discriminate H]. cbn [bind] in H.
  pose proof (high_ports_texts (set_name n (unmarked t)) _ _ _ (stands_texts _ _ S) Eh) as Eh'.
  change (t_protocol (set_name n (unmarked t))) with (t_protocol t) in H.
  change (t_protocol (set_name n (unmarked t))) with (t_protocol t) in Eh'. rewrite Eh'. cbn [bind].
  set (t' := set_protocol (t_protocol t) t1) in *.
  destruct (expired today t').
  { destruct (jun_pass c today _ os) as [(os1, l1)|e] eqn:E; [|discriminate H]. cbn [bind] in H. apply ok_inj in H. injection H as <- <-. cbn [picked]. exact (IH _ _ _ E). }
  destruct (_ && _); [discriminate H|].
  assert (Ep : t_protocol t' = t_protocol t) by reflexivity. rewrite Ep.
  destruct (juniper_init _) as [ps|e]; [|discriminate H]. cbn [bind] in *.
  destruct (jun_pass c today _ os) as [(os1, l1)|e] eqn:E; [|discriminate H]. cbn [bind] in H. apply ok_inj in H. injection H as <- <-.
  rewrite (IH _ _ _ E). reflexivity.
Qed.
Lemma passed_stands c today o t o' e : stands o t -> again t -> passed c today o o' e -> stands o' t.
Proof.
  intros S A [(_ & -> & _)|(_ & P1 & P2 & P3)]; [exact S|]. destruct (stands_facts _ _ S) as (_ & F1 & F2 & F3 & F4 & F5 & F6 & F7). right. split; [exact A|]. split.
  - right. rewrite P1, P2, F5, F6. auto.
  - destruct P3 as [(_ & _ & ->)|(t' & _ & _ & P3 & _)]; [|right; rewrite <- F7; exact P3].
    destruct S as [(_ & _ & ->)|(_ & _ & S)]; [left; reflexivity|exact S].
Qed.

(** ** Rendering *)

Lemma term_keeps c t i ps b ps' : jc_type c = "inet" -> existsb (pval_is "icmpv6") ps = false -> existsb (pval_is "icmp6") ps = false ->
  juniper_term c t i ps = Ok (b, ps') -> ps' = ps.
Proof.
  intros T N1 N2 H. unfold juniper_term in H. rewrite T in H. change (String.eqb "inet" "inet6") with false in H. change (String.eqb "inet" "inet") with true in H. cbv zeta iota in H.
  rewrite (remove_absent _ _ N1), (remove_absent _ _ N2) in H.
  destruct (_ || _); [apply ok_inj in H; congruence|]. destruct (negb (some ps) && some ps); [apply ok_inj in H; congruence|].
  destruct (some (t_verbatim t)).
  { destruct (append_lines _ _ _) as [cfg|e]; [|discriminate H]. cbn [bind] in H. destruct (config_lines _ _) as [ls|e]; [|discriminate H]. cbn [bind] in H. apply ok_inj in H. congruence. }
  destruct (juniper_options _ _ _ _) as [(extra, from)|e]; [|discriminate H]. cbn [bind] in H.
  destruct (given (t_filter_term t)).
  { destruct (append_lines _ _ _) as [cfg|e]; [|discriminate H]. cbn [bind] in H. destruct (config_lines _ _) as [ls|e]; [|discriminate H]. cbn [bind] in H. apply ok_inj in H. congruence. }
  destruct (if has_match_criteria t ps then _ else _) as [[fr|]|e]; [| |discriminate H]; cbn [bind] in H; [|apply ok_inj in H; congruence].
  destruct (then_lines _ _ _) as [th|e]; [|discriminate H]. cbn [bind] in H. destruct (append_lines _ _ _) as [cfg|e]; [|discriminate H]. cbn [bind] in H.
  destruct (config_lines _ _) as [ls|e]; [|discriminate H]. cbn [bind] in H. apply ok_inj in H. apply (f_equal snd) in H. cbn [snd] in H. rewrite <- H, (replace_absent _ _ _ N1). destruct (has_match_criteria t ps); reflexivity.
Qed.
Definition ready (o : jobj) (e : option term) : Prop := forall t', e = Some t' -> juniper_init (map PName (t_protocol t')) = Ok (jo_protocol o).
Definition drawn (c : juniper_cfg) (o : jobj) (e : option term) (o' : jobj) : Prop :=
  jo_inactive o' = jo_inactive o /\
  match e with None => o' = o | Some t' => exists b, juniper_term c t' (jo_inactive o) (jo_protocol o) = Ok (b, jo_protocol o') end.
Lemma render_spec c : forall os l, Forall2 ready os l -> forall lines os', jun_render c os l = Ok (lines, os') ->
  exists bs, lines = concat bs /\
    Forall2 (fun ti b => exists ps ps', juniper_init (map PName (t_protocol (fst ti))) = Ok ps /\ juniper_term c (fst ti) (snd ti) ps = Ok (b, ps')) (picked os l) bs /\
    Forall3 (drawn c) os l os'.
Proof.
  induction 1 as [|o e os l R F IH]; intros lines os' H; cbn [jun_render] in H.
  { apply ok_inj in H. injection H as <- <-. exists []. split; [reflexivity|]. split; constructor. }
  destruct e as [t|].
  - destruct (juniper_term c t (jo_inactive o) (jo_protocol o)) as [(b, ps)|e] eqn:Et; [|discriminate H]. cbn [bind] in H.
    destruct (jun_render c os l) as [(more, os1)|e] eqn:E; [|discriminate H]. cbn [bind] in H. apply ok_inj in H. injection H as <- <-.
    destruct (IH _ _ eq_refl) as (bs & -> & B1 & B2). exists (b :: bs). split; [reflexivity|]. split.
    + cbn [picked]. constructor; [|exact B1]. exists (jo_protocol o), ps. cbn [fst snd]. split; [apply R; reflexivity|exact Et].
    + constructor; [|exact B2]. split; [reflexivity|]. exists b. exact Et.
  - destruct (jun_render c os l) as [(more, os1)|e] eqn:E; [|discriminate H]. cbn [bind] in H. apply ok_inj in H. injection H as <- <-.
    destruct (IH _ _ eq_refl) as (bs & -> & B1 & B2). exists bs. split; [reflexivity|]. split; [exact B1|]. constructor; [split; reflexivity|exact B2].
Qed.

(** ** One filter *)

Definition any_packet (v : ver) (f : string) : packet :=
  mkPacket (v, 0) (v, 0) "tcp" 0 0 "" 0 (fun o => o = "sample") (fun _ => False) (fun _ => False) (fun _ => False) (fun _ => False)
    "" "" 0 0 0 0 "" "" "" "" "" "" "" f "juniper".
Lemma any_traffic c : filter_family (jc_type c) -> juniper_traffic c (any_packet (j_ver c) (jc_type c)).
Proof.
  intros T. unfold juniper_traffic, j_ver. destruct T as [->|[-> | ->]]; cbn; (split; [reflexivity|]); (split; [lia|]); (split; [reflexivity|]); (split; [lia|]);
    (split; [discriminate|]); (split; [split; discriminate|]); (split; [split; discriminate|]); auto.
Qed.
Lemma filter_of_type today h c suffix i acc os l cfg os' terms :
  filter_family (jc_type c) -> plain_word (jh_name h ++ suffix)%string -> quiet_comments (jh_comment h) ->
  Forall (juniper_listed_ok c today) terms -> juniper_select c today [] terms = Ok (picked os l) -> Forall2 ready os l ->
  jun_filter h c suffix (i, acc) os l = Ok (cfg, os') ->
  (exists lines rules, snd cfg = rev lines ++ acc /\ renders lines [filter_block (jc_type c) (jh_name h ++ suffix) rules] /\
     stmt_ok (filter_block (jc_type c) (jh_name h ++ suffix) rules) = true /\
     forall p, juniper_traffic c p -> forall o, filter_decides (j_ver c) rules p o <-> first_says (juniper_rule today p) terms o) /\
  Forall3 (drawn c) os l os'.
Proof.
  intros T Pn Qc F Es Rd H. unfold jun_filter in H.
  destruct (append_lines 0 (i, acc) _) as [(ind, acc1)|e] eqn:Eh; [|discriminate H]. cbn [bind fst snd] in H.
  destruct (jun_render c os l) as [(lines, os1)|e] eqn:Er; [|discriminate H]. cbn [bind fst snd] in H.
  destruct (append_lines 0 (ind, _) _) as [(ind', acc2)|e] eqn:Et; [|discriminate H]. cbn [bind] in H. apply ok_inj in H. injection H as <- <-.
  destruct (render_spec _ _ _ Rd _ _ Er) as (bs & -> & B1 & B2). split; [|exact B2]. cbn [snd].
  assert (Each : forall p, juniper_traffic c p -> exists new rules, acc2 = rev new ++ acc /\ renders new [filter_block (jc_type c) (jh_name h ++ suffix) rules] /\
     stmt_ok (filter_block (jc_type c) (jh_name h ++ suffix) rules) = true /\ forall o, filter_decides (j_ver c) rules p o <-> first_says (juniper_rule today p) terms o).
  { intros p Tr. destruct (juniper_select_spec c today p Tr _ _ _ F Es) as (Fs & Sp). exact (filter_behind _ _ _ _ _ _ _ _ _ _ _ _ _ _ _ _ T Pn Qc Tr Fs Sp B1 Eh Et). }
  destruct (Each _ (any_traffic c T)) as (new & rules & E1 & E2 & E3 & _). exists new, rules. split; [exact E1|]. split; [exact E2|]. split; [exact E3|].
  intros p Tr o. destruct (Each p Tr) as (new' & rules' & G1 & G2 & G3 & G4).
  assert (new' = new) by (apply app_inv_tail_iff with (l := acc); rewrite G1 in E1; apply app_inv_tail in E1; apply (f_equal (@rev _)) in E1; rewrite !rev_involutive in E1; congruence).
  subst new'. assert (X : [filter_block (jc_type c) (jh_name h ++ suffix) rules'] = [filter_block (jc_type c) (jh_name h ++ suffix) rules])
    by (apply (renders_same new); [exact G2|exact E2|cbn [forallb]; rewrite G3; reflexivity|cbn [forallb]; rewrite E3; reflexivity]).
  injection X as ->. apply G4.
Qed.

(** ** One header *)

Definition filter_says (today : Z) (w : string * string * list term) (block : stmt) : Prop :=
  exists rules, block = filter_block (fst (fst w)) (snd (fst w)) rules /\
    forall p, juniper_traffic (mkJuniper (fst (fst w)) false false) p -> forall o,
      filter_decides (j_ver (mkJuniper (fst (fst w)) false false)) rules p o <-> first_says (juniper_rule today p) (snd w) o.
Lemma term_ok_verbose f a b t : juniper_term_ok (mkJuniper f false a) t -> juniper_term_ok (mkJuniper f false b) t.
Proof.
  intros K. constructor.
  - exact (jt_type _ _ K).
  - reflexivity.
  - exact (jt_only _ _ K).
  - exact (jt_name _ _ K).
  - exact (jt_action _ _ K).
  - exact (jt_then _ _ K).
  - exact (jt_addr _ _ K).
  - exact (jt_src _ _ K).
  - exact (jt_dst _ _ K).
  - exact (jt_protocol _ _ K).
  - exact (jt_ports _ _ K).
  - exact (jt_option _ _ K).
  - exact (jt_condition _ _ K).
  - exact (jt_codes _ _ K).
  - exact (jt_ttl _ _ K).
  - exact (jt_hops _ _ K).
  - exact (jt_words _ _ K).
  - exact (jt_values _ _ K).
Qed.
Lemma listed_verbose f a b today terms : Forall (juniper_listed_ok (mkJuniper f false a) today) terms -> Forall (juniper_listed_ok (mkJuniper f false b) today) terms.
Proof.
  intros F. apply Forall_forall. intros t I. rewrite Forall_forall in F. intros L. destruct (F t I L) as (A & B). split; [exact A|]. intros Of. destruct (B Of) as (K & Q).
  split; [exact (term_ok_verbose _ _ _ _ K)|exact Q].
Qed.
Lemma fresh_stands terms : Forall2 stands (map jun_object terms) terms.
Proof. induction terms as [|t terms IH]; constructor; [left; repeat split|exact IH]. Qed.
Lemma passed_ready c today : forall os terms, Forall2 stands os terms -> forall os' l, Forall3 (passed c today) os os' l -> Forall2 ready os' l.
Proof.
  induction 1 as [|o t os terms S F IH]; intros os' l P; inversion P; subst; constructor; [|eapply IH; eassumption].
  intros t' ->. destruct (stands_facts _ _ S) as (_ & _ & _ & _ & F4 & _ & _ & F7).
  match goal with P1 : passed _ _ _ _ _ |- _ => rename P1 into Pz end. destruct Pz as [(_ & _ & X)|(_ & _ & _ & [(X & _)|(u & X & _ & Y & Z)])]; try discriminate X.
  injection X as <-. rewrite Z, F4, <- F7. exact Y.
Qed.
Lemma jun_kind_says name rest : NoDup rest -> ~ In name jun_flags -> jun_kind (name :: rest) = jun_type rest.
Proof.
  intros Nd N. unfold jun_kind. cbn [tl].
  assert (One : forall w l, In w jun_flags -> NoDup l -> (if str_in w rest then remove_first w (name :: l) else name :: l) = name :: (if str_in w rest then remove_first w l else l)).
  { intros w l I _. destruct (str_in w rest); [|reflexivity]. cbn [remove_first]. destruct (String.eqb w name) eqn:E; [apply String.eqb_eq in E; subst; destruct (N I)|reflexivity]. }
  assert (Nr : forall w l, NoDup l -> NoDup (remove_first w l) /\ forall x, In x (remove_first w l) -> In x l).
  { intros w. induction l as [|x l IH]; intros D; [split; [exact D|auto]|]. inversion D as [|? ? D1 D2]; subst. cbn [remove_first]. destruct (String.eqb w x); [split; [exact D2|intros y I; right; exact I]|].
    destruct (IH D2) as (I1 & I2). split; [constructor; [intros I; exact (D1 (I2 _ I))|exact I1]|]. intros y [<-|I]; [left; reflexivity|right; exact (I2 _ I)]. }
  rewrite (One "not-interface-specific" rest) by (cbn; auto). 
  set (r1 := if str_in "not-interface-specific" rest then _ else _).
  assert (D1 : NoDup r1) by (unfold r1; destruct (str_in "not-interface-specific" rest); [apply Nr, Nd|exact Nd]).
  rewrite (One "enable_dsmo" r1) by (cbn; auto). set (r2 := if str_in "enable_dsmo" rest then _ else _).
  assert (D2 : NoDup r2) by (unfold r2; destruct (str_in "enable_dsmo" rest); [apply Nr, D1|exact D1]).
  rewrite (One "filter_enhanced_mode" r2) by (cbn; auto).
  assert (Fl : forall w l, NoDup l -> filter (fun x => negb (String.eqb x w)) l = remove_first w l).
  { intros w. induction l as [|x l IH]; intros D; [reflexivity|]. inversion D as [|? ? E1 E2]; subst. cbn [filter remove_first]. rewrite String.eqb_sym.
    destruct (String.eqb w x) eqn:E; cbn [negb]; [|rewrite IH by exact E2; reflexivity]. apply String.eqb_eq in E. subst x.
    clear IH D E2. induction l as [|y l IH]; [reflexivity|]. cbn [filter]. destruct (String.eqb y w) eqn:E; [apply String.eqb_eq in E; subst; destruct (E1 (or_introl eq_refl))|].
    cbn [negb]. f_equal. apply IH. intros I. apply E1. right. exact I. }
  assert (Ab : forall w l, ~ In w l -> filter (fun x => negb (String.eqb x w)) l = l).
  { intros w. induction l as [|y l IH]; intros X; [reflexivity|]. cbn [filter]. destruct (String.eqb y w) eqn:E; [apply String.eqb_eq in E; subst; destruct (X (or_introl eq_refl))|].
    cbn [negb]. f_equal. apply IH. intros I. apply X. right. exact I. }
  assert (Both : forall w l, NoDup l -> (forall x, In x l -> In x rest) -> (if str_in w rest then remove_first w l else l) = filter (fun x => negb (String.eqb x w)) l).
  { intros w l D Sub. destruct (str_in w rest) eqn:E; [symmetry; apply Fl, D|]. symmetry. apply Ab. intros I. apply Sub, str_in_iff in I. congruence. }
  assert (E1 : r1 = filter (fun x => negb (String.eqb x "not-interface-specific")) rest) by (apply Both; auto).
  assert (E2 : r2 = filter (fun x => negb (String.eqb x "enable_dsmo")) r1) by (apply Both; [exact D1|]; intros x I; rewrite E1 in I; apply filter_In in I; apply I).
  rewrite (Both "filter_enhanced_mode" r2) by (try exact D2; intros x I; rewrite E2, E1 in I; apply filter_In in I; destruct I as (I & _); apply filter_In in I; apply I).
  rewrite E2, E1. unfold jun_type.
  assert (Ff : forall l, filter (fun x => negb (String.eqb x "filter_enhanced_mode")) (filter (fun x => negb (String.eqb x "enable_dsmo")) (filter (fun x => negb (String.eqb x "not-interface-specific")) l)) =
    filter (fun w => negb (str_in w jun_flags)) l).
  { induction l as [|x l IH]; [reflexivity|]. cbn [filter].
    replace (str_in x jun_flags) with (String.eqb x "not-interface-specific" || (String.eqb x "enable_dsmo" || (String.eqb x "filter_enhanced_mode" || false)))%bool by reflexivity.
    destruct (String.eqb x "not-interface-specific"); cbn [negb orb filter]; [exact IH|]. destruct (String.eqb x "enable_dsmo"); cbn [negb orb filter]; [exact IH|].
    destruct (String.eqb x "filter_enhanced_mode"); cbn [negb orb filter]; [exact IH|]. f_equal. exact IH. }
  rewrite Ff. destruct (filter _ rest); reflexivity.
Qed.
(** Two passes: the objects are those the second leaves, which serve both filters. *)
Lemma second_pass c4 c6 today : jc_type c4 = "inet" -> jc_type c6 = "inet6" -> forall terms,
  (forall t, In t terms -> ~ In "hopopt" (t_protocol t) /\ ~ In "icmp6" (t_protocol t) /\ (In "icmpv6" (t_protocol t) -> t_restrict_address_family t = Some "inet6") /\
     ~ In "inactive" (t_option (unmarked t))) ->
  forall os os1 os2 l1 l2, Forall2 stands os terms -> Forall3 (passed c4 today) os os1 l1 -> Forall3 (passed c6 today) os1 os2 l2 ->
  Forall2 stands os1 terms /\ picked os2 l1 = picked os1 l1 /\ Forall2 ready os2 l1 /\
  forall os3, Forall3 (drawn c4) os2 l1 os3 -> picked os3 l2 = picked os2 l2 /\ Forall2 ready os3 l2.
Proof.
  intros T4 T6. induction terms as [|t terms IH]; intros Hok os os1 os2 l1 l2 S P1 P2.
  { inversion S; subst. inversion P1; subst. inversion P2; subst. split; [constructor|]. split; [reflexivity|]. split; [constructor|]. intros os3 D. inversion D; subst. split; [reflexivity|constructor]. }
  inversion S as [|o ? osr ? So Sr]; subst. inversion P1 as [|? o1 e1 ? os1r l1r Po1 Pr1]; subst. inversion P2 as [|? o2 e2 ? os2r l2r Po2 Pr2]; subst.
  destruct (Hok t (or_introl eq_refl)) as (Nh & N6 & Nv & Na).
  assert (Ag : again t) by (split; assumption).
  pose proof (passed_stands _ _ _ _ _ _ So Ag Po1) as So1. pose proof (passed_stands _ _ _ _ _ _ So1 Ag Po2) as So2.
  destruct (IH (fun u I => Hok u (or_intror I)) _ _ _ _ _ Sr Pr1 Pr2) as (I1 & I2 & I3 & I4).
  destruct (stands_facts _ _ So) as (_ & _ & R0 & _ & Pr0 & U0 & In0 & Init0). destruct (stands_facts _ _ So1) as (_ & _ & R1 & _ & Prr & U1 & In1 & Init1).
  assert (Rs : forall c o', stands o' t -> restricted c (jo_term o') = restricted c t).
  { intros c o' So'. destruct (stands_facts _ _ So') as (_ & _ & R & _). unfold restricted. rewrite R. reflexivity. }
  (* what the second pass leaves of an object the first one has kept *)
  assert (Kept : forall t', e1 = Some t' -> jo_inactive o2 = jo_inactive o1 /\ jo_protocol o2 = jo_protocol o1 /\ juniper_init (map PName (t_protocol t)) = Ok (jo_protocol o1) /\ t_protocol t' = t_protocol t).
  { intros t' ->. destruct Po1 as [(_ & _ & X)|(_ & Q1 & Q2 & [(X & _)|(u & X & _ & Y & Z)])]; try discriminate X. injection X as <-.
    rewrite Init0 in Y. rewrite In0 in Q2. rewrite U0 in Q1.
    split; [|split; [|split; [exact Y|congruence]]].
    - destruct Po2 as [(_ & -> & _)|(_ & _ & -> & _)]; [reflexivity|]. rewrite Q1, (absent_str _ _ Na). apply orb_false_r.
    - destruct Po2 as [(_ & -> & _)|(_ & _ & _ & [(_ & _ & X)|(w & _ & _ & X & _)])]; [reflexivity|exact X|]. rewrite (init_twice _ _ Nh Y) in X. congruence. }
  split; [constructor; assumption|]. split; [|split].
  - destruct e1 as [t'|]; cbn [picked]; [|exact I2]. destruct (Kept _ eq_refl) as (-> & _). rewrite I2. reflexivity.
  - constructor; [|exact I3]. intros t' E. destruct (Kept _ E) as (_ & -> & K & ->). exact K.
  - intros os3 D. inversion D as [|? ? o3 ? ? os3r Do Dr]; subst. destruct (I4 _ Dr) as (J1 & J2). destruct Do as (Di & Do).
    pose proof (passed_ready c6 today [o1] [t] (Forall2_cons _ _ So1 (Forall2_nil _)) [o2] [e2] (F3cons _ _ _ _ _ _ _ Po2 (F3nil _))) as R2.
    inversion R2 as [|? ? ? ? Ro2 _]; subst.
    split; [destruct e2 as [t'|]; cbn [picked]; [rewrite Di, J1; reflexivity|exact J1]|].
    constructor; [|exact J2]. intros t' E. destruct e1 as [t1|]; [|rewrite Do; exact (Ro2 _ E)].
    destruct Do as (b & Do). destruct (Kept _ eq_refl) as (_ & K2 & K3 & _).
    assert (Rr : restricted c4 t = false).
    { destruct Po1 as [(_ & _ & X)|(X & _)]; [discriminate X|]. rewrite (Rs c4 _ So) in X. exact X. }
    assert (N4 : ~ In "icmpv6" (t_protocol t)).
    { intros I. apply Nv in I. unfold restricted in Rr. rewrite I, T4 in Rr. discriminate Rr. }
    assert (Eps : jo_protocol o2 = map four (map PName (t_protocol t))) by (rewrite K2; exact (init_four _ _ Nh K3)).
    apply term_keeps in Do; [|exact T4|rewrite Eps; apply four_absent, N4|rewrite Eps; apply four_absent, N6]. rewrite Do. exact (Ro2 _ E).
Qed.
Lemma header_says today h terms name rest hd os fs i acc cfg : jun_header_ok today h terms name rest ->
  jun_translate today h (name :: rest) terms = Ok (hd, (os, fs)) -> jun_filters hd (i, acc) os fs = Ok cfg ->
  exists lines blocks, snd cfg = rev lines ++ acc /\ renders lines blocks /\ forallb stmt_ok blocks = true /\
    Forall2 (filter_says today) (map (fun x => (fst x, snd x, terms)) (jun_names name (jun_type rest))) blocks.
Proof.
  intros [Pn (Nd & Nn) Nds Ty Qc Tm Sh] Tr H. unfold jun_translate in Tr. cbn [tl] in Tr.
  rewrite (jun_kind_says _ _ Nd Nn), (absent_str _ _ Nds) in Tr.
  set (nv := str_in "noverbose" rest) in *.
  destruct (jun_passes _ _ _) as [(os0, fs0)|e] eqn:Ep; [|discriminate Tr]. cbn [bind] in Tr. apply ok_inj in Tr. injection Tr as <- <- <-.
  set (hh := mkJunHeader name (snd h) (negb (str_in "not-interface-specific" rest)) (str_in "filter_enhanced_mode" rest)) in *.
  destruct (String.eqb (jun_type rest) "mixed") eqn:Em.
  - unfold jun_types in Ep. unfold jun_names in *. rewrite Em in *. apply String.eqb_eq in Em. cbn [map fst snd jun_passes] in Ep.
    set (c4 := mkJuniper "inet" false nv) in *. set (c6 := mkJuniper "inet6" false nv) in *.
    destruct (jun_pass c4 today [] _) as [(os1, l1)|e] eqn:E1; [|discriminate Ep]. cbn [bind] in Ep.
    destruct (jun_pass c6 today [] os1) as [(os2, l2)|e] eqn:E2; [|discriminate Ep]. cbn [bind] in Ep. apply ok_inj in Ep. injection Ep as <- <-.
    pose proof (fresh_stands terms) as S0.
    destruct (second_pass c4 c6 today eq_refl eq_refl terms (Sh Em) _ _ _ _ _ S0 (pass_spec _ _ _ _ _ _ E1) (pass_spec _ _ _ _ _ _ E2)) as (S1 & K1 & R1 & K2).
    cbn [jun_filters] in H. destruct (jun_filter _ c4 _ _ _ _) as [(cfg1, os3)|e] eqn:G1; [|discriminate H]. cbn [bind] in H.
    destruct (jun_filter _ c6 _ _ _ _) as [(cfg2, os4)|e] eqn:G2; [|discriminate H]. cbn [bind] in H. apply ok_inj in H. subst cfg2.
    assert (Pw : forall s, plain_word s -> plain_word (name ++ s)%string).
    { intros s (_ & P2). destruct Pn as (P3 & P4). split; [destruct name; [congruence|discriminate]|]. rewrite forall_char_app, P4, P2. reflexivity. }
    destruct (filter_of_type today hh c4 "4" i acc os2 l1 cfg1 os3 terms) as ((ls1 & ru1 & A1 & A2 & A3 & A4) & D1); [left; reflexivity|apply Pw; split; [discriminate|reflexivity]|exact Qc| | |exact R1|exact G1|].
    { apply (listed_verbose _ false), Tm. left. reflexivity. }
    { rewrite K1. exact (pass_select _ _ _ _ S0 _ _ _ E1). }
    destruct (K2 _ D1) as (K3 & R3). destruct cfg1 as (i1, acc1). cbn [snd] in A1. subst acc1.
    destruct (filter_of_type today hh c6 "6" i1 (rev ls1 ++ acc) os3 l2 cfg os4 terms) as ((ls2 & ru2 & B1 & B2 & B3 & B4) & _); [right; left; reflexivity|apply Pw; split; [discriminate|reflexivity]|exact Qc| | |exact R3|exact G2|].
    { apply (listed_verbose _ false), Tm. right. left. reflexivity. }
    { rewrite K3. exact (pass_select _ _ _ _ S1 _ _ _ E2). }
    exists (ls1 ++ ls2), [filter_block "inet" (name ++ "4") ru1; filter_block "inet6" (name ++ "6") ru2]. split; [rewrite B1, rev_app_distr, app_assoc; reflexivity|].
    split; [exact (renders_app _ _ _ _ A2 B2)|]. split; [cbn [forallb]; apply andb_true_iff; split; [exact A3|apply andb_true_iff; split; [exact B3|reflexivity]]|].
    constructor; [exists ru1; split; [reflexivity|exact A4]|]. constructor; [exists ru2; split; [reflexivity|exact B4]|constructor].
  - unfold jun_types in Ep. unfold jun_names in *. rewrite Em in *. cbn [map fst snd jun_passes] in Ep.
    set (c := mkJuniper (jun_type rest) false nv) in *.
    assert (Tc : filter_family (jc_type c)).
    { destruct Ty as [E|[E|[E|[E|[]]]]]; [left; exact (eq_sym E)|right; left; exact (eq_sym E)|right; right; exact (eq_sym E)|]. rewrite <- E in Em. discriminate Em. }
    destruct (jun_pass c today [] _) as [(os1, l1)|e] eqn:E1; [|discriminate Ep]. cbn [bind] in Ep. apply ok_inj in Ep. injection Ep as <- <-.
    pose proof (fresh_stands terms) as S0. pose proof (passed_ready _ _ _ _ S0 _ _ (pass_spec _ _ _ _ _ _ E1)) as R1.
    cbn [jun_filters] in H. destruct (jun_filter _ c _ _ _ _) as [(cfg1, os3)|e] eqn:G1; [|discriminate H]. cbn [bind] in H. apply ok_inj in H. subst cfg1.
    assert (En : (name ++ "")%string = name) by (clear; induction name as [|x s IH]; [reflexivity|cbn [append]; rewrite IH; reflexivity]).
    destruct (filter_of_type today hh c "" i acc os1 l1 cfg os3 terms) as ((ls1 & ru1 & A1 & A2 & A3 & A4) & D1); [exact Tc|change (jh_name hh) with name; rewrite En; exact Pn|exact Qc| | |exact R1|exact G1|].
    { apply (listed_verbose _ false), Tm. left. reflexivity. }
    { exact (pass_select _ _ _ _ S0 _ _ _ E1). }
    change (jh_name hh) with name in *. rewrite En in *.
    exists ls1, [filter_block (jun_type rest) name ru1]. split; [exact A1|]. split; [exact A2|]. split; [cbn [forallb]; apply andb_true_iff; split; [exact A3|reflexivity]|].
    constructor; [|constructor]. exists ru1. split; [reflexivity|exact A4].
Qed.

(** ** All headers *)

Definition one_header (today : Z) (f : asa_header * list term) : res (list (jun_header * (list jobj * list (juniper_cfg * string * list (option term))))) :=
  match fst (fst f) with
  | Some all => let! x := jun_translate today (fst f) all (snd f) in Ok [x]
  | None => Ok []
  end.
Lemma headers_say today : forall fs l, jun_policy_ok today fs -> mapM (one_header today) fs = Ok l ->
  forall i acc cfg, jun_headers (i, acc) (concat l) = Ok cfg ->
  exists lines blocks, snd cfg = rev lines ++ acc /\ renders lines blocks /\ forallb stmt_ok blocks = true /\ Forall2 (filter_says today) (jun_wanted fs) blocks.
Proof.
  induction fs as [|f fs IH]; intros l K M i acc cfg H.
  { apply ok_inj in M. subst l. apply ok_inj in H. subst cfg. exists [], []. split; [reflexivity|]. split; [apply renders_nil|]. split; [reflexivity|constructor]. }
  cbn [mapM] in M. destruct (one_header today f) as [x|e] eqn:E1; [|discriminate M]. cbn [bind] in M.
  destruct (mapM _ fs) as [xs|e] eqn:E2; [|discriminate M]. cbn [bind] in M. apply ok_inj in M. subst l.
  assert (K' : jun_policy_ok today fs) by (intros g all I; apply K; right; exact I).
  unfold one_header in E1. unfold jun_wanted. cbn [flat_map]. fold (jun_wanted fs). destruct (fst (fst f)) as [all|] eqn:Ea.
  - destruct (jun_translate today (fst f) all (snd f)) as [(hd, (os, ps))|e] eqn:Et; [|discriminate E1]. cbn [bind] in E1. apply ok_inj in E1. subst x.
    destruct (K f all (or_introl eq_refl) Ea) as (name & rest & -> & Ho).
    cbn [concat app jun_headers] in H. destruct (jun_filters hd (i, acc) os ps) as [cfg1|e] eqn:Ef; [|discriminate H]. cbn [bind] in H.
    destruct (header_says _ _ _ _ _ _ _ _ _ _ _ Ho Et Ef) as (ls & bl & A1 & A2 & A3 & A4). destruct cfg1 as (i1, acc1). cbn [snd] in A1. subst acc1.
    destruct (IH _ K' eq_refl _ _ _ H) as (ls' & bl' & B1 & B2 & B3 & B4).
    exists (ls ++ ls'), (bl ++ bl'). split; [rewrite B1, rev_app_distr, app_assoc; reflexivity|]. split; [exact (renders_app _ _ _ _ A2 B2)|].
    split; [rewrite forallb_app, A3, B3; reflexivity|]. apply Forall2_app; assumption.
  - apply ok_inj in E1. subst x. cbn [concat app] in H. exact (IH _ K' eq_refl _ _ _ H).
Qed.
Lemma text_blocks today fs lines : jun_policy_ok today fs -> jun_text today fs = Ok lines ->
  exists conf, statements lines = Some conf /\ Forall2 (filter_says today) (jun_wanted fs) conf.
Proof.
  intros K H. unfold jun_text in H. destruct (check_tokens _ _ _); [|discriminate H]. cbn [bind] in H.
  change (fun f : asa_header * list term => match fst (fst f) with Some all => let! x := jun_translate today (fst f) all (snd f) in Ok [x] | None => Ok [] end) with (one_header today) in H.
  destruct (mapM (one_header today) fs) as [l|e] eqn:E1; [|discriminate H]. cbn [bind] in H.
  destruct (jun_headers (0, []) (concat l)) as [cfg|e] eqn:E2; [|discriminate H]. cbn [bind] in H.
  unfold config_lines in H. destruct (fst cfg =? 0); [|discriminate H]. apply ok_inj in H. subst lines.
  destruct (headers_say _ _ _ K E1 _ _ _ E2) as (ls & bl & A1 & A2 & A3 & A4). rewrite A1, app_nil_r, rev_involutive.
  exists bl. split; [|exact A4]. unfold statements. change (text_of ls) with (cat ls ""). rewrite (A2 ""). rewrite read_stmts by exact A3. cbn [SpecJuniper.tokens flush is_empty read]. rewrite app_nil_r, rev_involutive. reflexivity.
Qed.
Lemma Forall2_in_l {A B} (R : A -> B -> Prop) l l' x : Forall2 R l l' -> In x l -> exists y, In y l' /\ R x y.
Proof.
  induction 1 as [|a b l l' H F IH]; intros I; [destruct I|]. destruct I as [<-|I]; [exists b; split; [left; reflexivity|exact H]|].
  destruct (IH I) as (y & J & R'). exists y. split; [right; exact J|exact R'].
Qed.
Lemma wanted_once today : forall ws conf, Forall2 (filter_says today) ws conf -> NoDup (map fst ws) -> forall fam name a b,
  In (filter_block fam name a) conf -> In (filter_block fam name b) conf -> a = b.
Proof.
  induction 1 as [|w blk ws conf (rules & E & _) F IH]; intros D fam name a b Ia Ib; [destruct Ia|]. cbn [map] in D. inversion D as [|? ? N D']; subst.
  assert (No : forall x, In (filter_block (fst (fst w)) (snd (fst w)) x) conf -> False).
  { intros x I. apply N. clear - F I. induction F as [|v blk ws conf (rules & E & _) F IH]; [destruct I|]. cbn [map]. destruct I as [I|I]; [|right; exact (IH I)].
    subst blk. unfold filter_block in I. injection I as E1 E2 _. left. destruct v as ((v1, v2), v3), w as ((w1, w2), w3). cbn [fst snd] in *. congruence. }
  destruct Ia as [Ia|Ia], Ib as [Ib|Ib].
  - unfold filter_block in Ia, Ib. injection Ia as _ _ Ea. injection Ib as _ _ Eb. congruence.
  - exfalso. apply (No b). unfold filter_block in Ia. injection Ia as E1 E2 _. rewrite E1, E2. exact Ib.
  - exfalso. apply (No a). unfold filter_block in Ib. injection Ib as E1 E2 _. rewrite E1, E2. exact Ia.
  - exact (IH D' _ _ _ _ Ia Ib).
Qed.
Theorem policy_decides today fs lines : jun_policy_ok today fs -> jun_text today fs = Ok lines ->
  exists conf, statements lines = Some conf /\
    (forall fam name terms, In (fam, name, terms) (jun_wanted fs) ->
       exists rules, has_filter conf fam name rules /\ (jun_names_differ fs -> forall other, has_filter conf fam name other -> other = rules) /\
         forall p, juniper_traffic (mkJuniper fam false false) p -> forall o,
           filter_decides (j_ver (mkJuniper fam false false)) rules p o <-> first_says (juniper_rule today p) terms o) /\
    (forall fam name rules, has_filter conf fam name rules -> exists terms, In (fam, name, terms) (jun_wanted fs)).
Proof.
  intros K H. destruct (text_blocks _ _ _ K H) as (conf & E & F). exists conf. split; [exact E|].
  assert (Has : forall fam name rules, has_filter conf fam name rules <-> In (filter_block fam name rules) conf).
  { intros fam name rules. split; [|intros I; exists [Block ["family"; fam] [Block ["replace:"; "filter"; name] rules]], [Block ["replace:"; "filter"; name] rules]; split; [exact I|]; split; left; reflexivity].
    intros (fw & fm & I1 & I2 & I3). clear E K H.
    assert (G : exists w r, In w (jun_wanted fs) /\ Block ["firewall"] fw = filter_block (fst (fst w)) (snd (fst w)) r).
    { induction F as [|w blk ws conf (r & E & _) F IH]; [destruct I1|]. destruct I1 as [I1|I1]; [subst; exists w, r; split; [left; reflexivity|symmetry; exact I1]|].
      destruct (IH I1) as (v & r' & J & E'). exists v, r'. split; [right; exact J|exact E']. }
    destruct G as (w & r & _ & G). unfold filter_block in G. injection G as ->. destruct I2 as [I2|[]]. injection I2 as E1 <-. destruct I3 as [I3|[]]. injection I3 as E2 <-.
    rewrite E1, E2 in I1. exact I1. }
  split.
  - intros fam name terms I. destruct (Forall2_in_l _ _ _ _ F I) as (blk & J & rules & -> & D). cbn [fst snd] in *. exists rules.
    split; [apply Has; exact J|]. split; [|exact D]. intros Nd other O. apply Has in O. exact (wanted_once _ _ _ F Nd _ _ _ _ O J).
  - intros fam name rules I. apply Has in I. clear - F I. induction F as [|w blk ws conf (r & E & _) F IH]; [destruct I|].
    destruct I as [I|I]; [|destruct (IH I) as (t & J); exists t; right; exact J]. subst blk. unfold filter_block in I. injection I as E1 E2 _.
    destruct w as ((w1, w2), w3). cbn [fst snd] in *. subst. exists w3. left. reflexivity.
Qed.
