(** Packet Filter: tables and whole policies. *)
From Coq Require Import Lia ZifyBool ZifyNat Permutation.
From Verif Require Import SpecPf BaseFacts IPFacts PyStrFacts TextProofs PolicyProofs GenProofs GenProofs2 CiscoProofs CiscoProofs2 CiscoAcl GceProofs GceDecide SrxBook PfText PfRule PfMatch PfFlags PfTerm.
Local Open Scope string_scope.
Local Open Scope list_scope.
Local Open Scope Z_scope.

(** ** Tables *)
Definition good_address (D : string -> ipaddr -> Prop) (m : net) : Prop := valid m /\ pf_word (nptoken m) /\ forall x, covers m x -> D (pf_short m) x.
Record tables_ok (D : string -> ipaddr -> Prop) (b : list (string * list net)) : Prop := {
  tk_names : forall n l, In (n, l) b -> forall_char pf_char n = true;
  tk_nets : forall n l m, In (n, l) b -> In m l -> pf_short m = n /\ good_address D m }.
Definition has (b : list (string * list net)) (m : net) : Prop := forall x, covers m x -> exists l k, In (pf_short m, l) b /\ In k l /\ covers k x.
Definition put (a : net) (l : list net) : list net := if existsb (net_eqb a) l then l else l ++ [a].
Lemma put_incl a l : incl l (put a l).
Proof. intros x I. unfold put. destruct (existsb (net_eqb a) l); [exact I|apply in_or_app; left; exact I]. Qed.
Lemma put_in a l m : In m (put a l) -> In m l \/ m = a.
Proof. unfold put. destruct (existsb (net_eqb a) l); [auto|]. intros I. apply in_app_or in I. destruct I as [I|[I|[]]]; auto. Qed.
Lemma put_covers D a l : valid a -> (forall m, In m l -> good_address D m) -> forall x, covers a x -> exists k, In k (put a l) /\ covers k x.
Proof.
  intros V H x C. unfold put. destruct (existsb (net_eqb a) l) eqn:E; [|exists a; split; [apply in_or_app; right; left; reflexivity|exact C]].
  apply existsb_exists in E. destruct E as (k & I & E). exists k. split; [exact I|]. destruct (H k I) as (Vk & _). apply net_eqb_spec in E; [|exact V|exact Vk].
  unfold prefix_of in E. unfold covers, size in *. injection E as E1 E2 E3. rewrite <- E1, <- E2, <- E3. exact C.
Qed.
Lemma update_keeps {A} k (d : list A) f m j l : (forall x, incl x (f x)) -> In (j, l) m -> exists l', In (j, l') (update k d f m) /\ incl l l'.
Proof.
  intros F. induction m as [|(k', y) m IH]; intros I; [destruct I|]. cbn [update]. destruct (String.eqb k k') eqn:E.
  - destruct I as [I|I]; [injection I as -> ->; exists (f l); split; [left; reflexivity|apply F]|exists l; split; [right; exact I|apply incl_refl]].
  - destruct I as [I|I]; [injection I as -> ->; exists l; split; [left; reflexivity|apply incl_refl]|]. destruct (IH I) as (l' & I' & J). exists l'. split; [right; exact I'|exact J].
Qed.
Lemma update_has {A} k (d : A) f m : In (k, f d) (update k d f m) \/ exists y, In (k, y) m /\ In (k, f y) (update k d f m).
Proof.
  induction m as [|(k', y) m IH]; [left; left; reflexivity|]. cbn [update]. destruct (String.eqb k k') eqn:E.
  - apply String.eqb_eq in E. subst k'. right. exists y. split; left; reflexivity.
  - destruct IH as [IH|(z & I1 & I2)]; [left; right; exact IH|right; exists z; split; right; assumption].
Qed.
Lemma short_chars m : pf_word (nptoken m) -> forall_char pf_char (pf_short m) = true.
Proof. intros (_ & F). unfold pf_short. destruct (slice_to_prefix (nptoken m) 31) as (q & E). rewrite E, forall_char_app in F. apply andb_true_iff in F. apply F. Qed.
Lemma add_spec D st a st' : pf_add st a = Ok st' -> good_address D a -> tables_ok D (fst st) ->
  tables_ok D (fst st') /\ (forall m, has (fst st) m -> has (fst st') m) /\ has (fst st') a.
Proof.
  intros H (V & Wa & C) [T1 T2]. destruct st as [b long]. assert (E : fst st' = update (pf_short a) [] (put a) b).
  { cbn [pf_add] in H. destruct (assoc (pf_short a) long) as [m|]; [destruct (String.eqb m (nptoken a)); [|discriminate H]|]; apply ok_inj in H; subst st'; reflexivity. }
  clear H. rewrite E. clear E st'. cbn [fst] in *. split; [|split].
  - constructor.
    + intros n l I. apply update_in in I. destruct I as [I|(-> & _)]; [exact (T1 n l I)|apply short_chars, Wa].
    + intros n l m I J. apply update_in in I. destruct I as [I|(-> & [->|(x & I & ->)])]; [exact (T2 n l m I J)|..]; apply put_in in J; destruct J as [J| ->].
      * destruct J.
      * split; [reflexivity|]. split; [exact V|split; assumption].
      * exact (T2 _ x m I J).
      * split; [reflexivity|]. split; [exact V|split; assumption].
  - intros m Hm x Cx. destruct (Hm x Cx) as (l & k & I & J & Ck). destruct (update_keeps (pf_short a) [] (put a) b _ l (put_incl a) I) as (l' & I' & Ic). exists l', k. auto.
  - intros x Cx. destruct (update_has (pf_short a) [] (put a) b) as [I|(y & Iy & I)].
    + exists (put a []). destruct (put_covers D a [] V ltac:(intros m []) x Cx) as (k & Ik & Ck). exists k. auto.
    + exists (put a y). destruct (put_covers D a y V ltac:(intros m Im; apply (T2 _ y m Iy Im)) x Cx) as (k & Ik & Ck). exists k. auto.
Qed.
Lemma fold_spec D l : forall st st', foldM pf_add l st = Ok st' -> (forall a, In a l -> good_address D a) -> tables_ok D (fst st) ->
  tables_ok D (fst st') /\ (forall m, has (fst st) m -> has (fst st') m) /\ forall a, In a l -> has (fst st') a.
Proof.
  induction l as [|a l IH]; intros st st' H G T; cbn [foldM] in H; [apply ok_inj in H; subst st'; split; [exact T|split; [auto|intros a []]]|].
  apply bind_ok in H. destruct H as (s & Ha & H). destruct (add_spec D st a s Ha (G a (or_introl eq_refl)) T) as (T1 & K1 & A1).
  destruct (IH s st' H (fun x I => G x (or_intror I)) T1) as (T2 & K2 & A2). split; [exact T2|]. split; [auto|]. intros x [<-|I]; [apply K2, A1|apply A2, I].
Qed.
Definition term_addresses (D : string -> ipaddr -> Prop) (t : term) : Prop :=
  forall l, In l [t_source_address t; t_destination_address t] -> valid_list l /\ (forall n, In n l -> pf_word (nptoken n)) /\ pf_side_settled D l.
Lemma addresses_good D t a : term_addresses D t -> In a (t_source_address t ++ t_destination_address t) -> good_address D a.
Proof.
  intros H I. assert (X : exists l, In l [t_source_address t; t_destination_address t] /\ In a l).
  { apply in_app_or in I. destruct I as [I|I]; [exists (t_source_address t)|exists (t_destination_address t)]; (split; [cbn; auto|exact I]). }
  destruct X as (l & Il & Ia). destruct (H l Il) as (V & Wd & S). unfold valid_list in V. rewrite Forall_forall in V. split; [exact (V a Ia)|]. split; [exact (Wd a Ia)|].
  intros x C. apply (S a x Ia). exists a. auto.
Qed.

(** ** The loop over the terms *)
Lemma name_kept t n : fix_term_length abbreviation_table (t_name t) false false cisco_name_limit = Ok n -> n = t_name t.
Proof. unfold fix_term_length. destruct (slen (t_name t) <=? cisco_name_limit); [|discriminate]. intros H. apply ok_inj in H. auto. Qed.
Lemma terms_book D today stateful af dir : forall terms seen st st' es, pf_terms today stateful af dir seen st terms = Ok (st', es) ->
  (forall t, In t terms -> term_addresses D t) -> tables_ok D (fst st) ->
  tables_ok D (fst st') /\ (forall m, has (fst st) m -> has (fst st') m) /\ forall t a, In t terms -> In a (t_source_address t ++ t_destination_address t) -> has (fst st') a.
Proof.
  induction terms as [|t terms IH]; intros seen st st' es H G T; cbn [pf_terms] in H.
  - apply ok_inj in H. injection H as <- <-. split; [exact T|]. split; [auto|intros t a []].
  - apply bind_ok in H. destruct H as (n & _ & H). destruct (str_in n seen); [discriminate H|]. apply bind_ok in H. destruct H as (s & Hs & H).
    destruct (fold_spec D _ _ _ Hs (fun a I => addresses_good D t a (G t (or_introl eq_refl)) I) T) as (T1 & K1 & A1).
    assert (Y : exists seen' es', pf_terms today stateful af dir seen' s terms = Ok (st', es')).
    { destruct (expired today t); [eauto|]. destruct (given (t_destination_interface t) && given (t_source_interface t)); [discriminate H|].
      destruct (if given (t_destination_interface t) then ("out", t_destination_interface t) else if given (t_source_interface t) then ("in", t_source_interface t) else (dir, None)) as (d, i).
      apply bind_ok in H. destruct H as (ps & _ & H). apply bind_ok in H. destruct H as ((st'', more) & Hm & H). apply ok_inj in H. injection H as <- <-. eauto. }
    destruct Y as (seen' & es' & Y). destruct (IH _ _ _ _ Y (fun x I => G x (or_intror I)) T1) as (T2 & K2 & A2). split; [exact T2|]. split; [auto|].
    intros x a [<-|I] J; [apply K2, A1, J|exact (A2 x a I J)].
Qed.
Definition right_for (D : string -> ipaddr -> Prop) (tables : list (string * list string)) (t : term) : Prop :=
  tables_right tables D (t_source_address t) /\ tables_right tables D (t_destination_address t).
Definition good_block (D : string -> ipaddr -> Prop) (today : Z) (x : (option (list string) * list string) * term) (b : list pf_rule) : Prop :=
  (forall r, In r b -> pr_quick r = true) /\
  forall tables p d o, right_for D tables (snd x) -> pf_traffic p -> In d ["in"; "out"] -> (opens p \/ forall name opts, pf_asks (fst x) name opts -> In "nostate" opts) ->
    ((exists r, In r b /\ rule_applies tables d p r /\ pr_action r = o) <-> pf_term_says today d p x o).
Lemma empty_block D today x : (forall d p o, pf_traffic p -> ~ pf_term_says today d p x o) -> good_block D today x [].
Proof. intros H. split; [intros r []|]. intros tables p d o _ Tp _ _. split; [intros (r & [] & _)|intros S; destruct (H d p o Tp S)]. Qed.
Lemma expired_force today t : expired today t = false <-> in_force today t.
Proof.
  unfold expired, in_force. destruct (t_expiration t) as [e|]; [|split; [discriminate|reflexivity]]. split; [intros H d E; injection E as <-; lia|]. intros H. specialize (H e eq_refl). lia.
Qed.
Lemma terms_blocks D today filters ts (h : option (list string) * list string) name opts stateful af :
  check_tokens "packetfilter" pf_tokens filters = Ok tt -> In (["packetfilter"], ts) filters -> pf_asks h name opts -> pf_family opts = Ok af -> (In "nostate" opts -> stateful = false) ->
  forall terms seen st st' es ls, pf_terms today stateful af (pf_direction opts) seen st terms = Ok (st', es) -> mapM pf_term es = Ok ls ->
  incl terms ts -> (forall t, In t terms -> term_addresses D t) -> (forall t, In t terms -> in_force today t -> meant_for "packetfilter" t -> pf_term_ok t) ->
  exists blocks, Forall2 (fun t b => good_block D today (h, t) b) terms blocks /\ reads (concat ls) (concat blocks).
Proof.
  intros Ck If Ha Fam Ns. induction terms as [|t terms IH]; intros seen st st' es ls H Hm Inc G K; cbn [pf_terms] in H.
  - apply ok_inj in H. injection H as <- <-. cbn [mapM] in Hm. apply ok_inj in Hm. subst ls. exists []. split; [constructor|apply reads_nil].
  - apply bind_ok in H. destruct H as (n & Hn & H). apply name_kept in Hn. subst n. destruct (str_in (t_name t) seen); [discriminate H|]. apply bind_ok in H. destruct H as (s & _ & H).
    destruct (expired today t) eqn:Ex.
    + destruct (IH _ _ _ _ _ H Hm (fun x I => Inc x (or_intror I)) (fun x I => G x (or_intror I)) (fun x I => K x (or_intror I))) as (blocks & F & R).
      exists ([] :: blocks). split; [|exact R]. constructor; [|exact F]. apply empty_block. intros d p o _ (nm & op & a & more & _ & _ & _ & Fo & _). apply expired_force in Fo. congruence.
    + destruct (given (t_destination_interface t) && given (t_source_interface t)) eqn:One; [discriminate H|].
      destruct (if given (t_destination_interface t) then ("out", t_destination_interface t) else if given (t_source_interface t) then ("in", t_source_interface t) else (pf_direction opts, None)) as (d, i) eqn:Pl.
      apply bind_ok in H. destruct H as (ps & Hps & H). apply bind_ok in H. destruct H as ((st'', more) & Hmore & H). apply ok_inj in H. injection H as <- <-.
      cbn [mapM] in Hm. apply bind_ok in Hm. destruct Hm as (l & Hl & Hm). apply bind_ok in Hm. destruct Hm as (ls' & Hls & Hm). apply ok_inj in Hm. subst ls.
      destruct (IH _ _ _ _ _ Hmore Hls (fun x I => Inc x (or_intror I)) (fun x I => G x (or_intror I)) (fun x I => K x (or_intror I))) as (blocks & F & R).
      set (e := mkPfEntry stateful af d i (set_name (t_name t) t) ps) in *.
      assert (Fo : in_force today t) by (apply expired_force, Ex).
      assert (B : exists b, good_block D today (h, t) b /\ reads l b).
      { destruct (((some (t_platform t) && negb (str_in "packetfilter" (t_platform t))) || (some (t_platform_exclude t) && str_in "packetfilter" (t_platform_exclude t)))) eqn:Mt.
        - exists []. split.
          + apply empty_block. intros d' p o _ (nm & op & a & m & _ & _ & _ & _ & M & _). apply meant_test in M. congruence.
          + unfold pf_term, e in Hl. cbn [pe_term set_name t_platform t_platform_exclude] in Hl. rewrite Mt in Hl. apply ok_inj in Hl. subst l. apply reads_nil.
        - apply meant_test in Mt. pose proof (K t (or_introl eq_refl) Fo Mt) as Kt.
          assert (E : entry_for stateful af (pf_direction opts) (t_name t) t e) by (constructor; [auto|symmetry; exact Pl|exact One|exact Hps]).
          destruct (term_block filters ts stateful opts (pf_direction opts) af (t_name t) t e l D Ck If (Inc t (or_introl eq_refl)) Mt Kt (fo_name t Kt) Fam eq_refl
            (fun l Il => proj2 (G t (or_introl eq_refl) l Il)) E Hl) as (rs & Rd & Q & S).
          exists rs. split; [|exact Rd]. split; [exact Q|]. intros tables p d' o (T1 & T2) Tp Id Op. cbn [fst snd] in *.
          assert (Op' : opens p \/ stateful = false) by (destruct Op as [Op|Op]; [left; exact Op|right; apply Ns, (Op name opts Ha)]).
          rewrite (S tables p d' o T1 T2 Tp Id Op'). destruct (family_spec _ _ Fam) as (_ & Fs). rewrite <- Fs. unfold pf_term_says. split.
          + intros (A1 & A2 & A3 & a & m & A4 & A5). exists name, opts, a, m. auto 10.
          + intros (nm & op & a & m & Ha' & A1 & A2 & _ & _ & A3 & A4 & A5). unfold pf_asks in Ha, Ha'. rewrite Ha in Ha'. injection Ha' as <- <-.
            split; [exact A1|]. split; [exact A2|]. split; [exact A3|]. exists a, m. auto. }
      destruct B as (b & B1 & B2). exists (b :: blocks). split; [constructor; assumption|]. cbn [concat]. apply reads_app; assumption.
Qed.

(** ** Headers *)
Lemma filter_lines_reads name comment af es ls bs blocks : pf_word name -> closed_comments comment -> In af pf_families -> mapM pf_term es = Ok ls -> reads (concat ls) blocks ->
  pf_filter_lines (name, comment, af, es) = Ok bs -> reads bs blocks.
Proof.
  intros Wn Cc Iaf Em R H. unfold pf_filter_lines in H. rewrite Em in H. cbn [bind] in H. apply ok_inj in H. subst bs.
  apply (reads_app _ _ [] blocks).
  { apply (reads_comment ("Packetfilter " ++ name ++ " Policy")%string). rewrite !has_char_app. destruct (pf_chars _ (proj2 Wn)) as (_ & B & _). rewrite B. reflexivity. }
  apply (reads_app _ _ [] blocks).
  { pose proof (comments_reads comment 70 Cc) as X. destruct (wrap_words comment 70 lf) as [|c l]; [apply reads_nil|]. destruct (is_empty c); [apply reads_nil|].
    apply (reads_app _ _ [] []); [exact X|]. apply reads_blank; reflexivity. }
  apply (reads_app _ _ [] blocks). { apply reads_blanks. intros l I. cbn in I. destruct I as [<-|[<-|[<-|[]]]]; split; reflexivity. }
  apply (reads_app _ _ [] blocks). { destruct Iaf as [<-|[<-|[<-|[]]]]; apply reads_blank; reflexivity. }
  rewrite <- (app_nil_r blocks). apply reads_app; [exact R|]. apply reads_blank; reflexivity.
Qed.
Lemma filters_spec D today all : check_tokens "packetfilter" pf_tokens (map (fun f : (option (list string) * list string) * list term => (match fst (fst f) with Some _ => ["packetfilter"] | None => [] end, snd f)) all) = Ok tt ->
  pf_policy_ok today D all ->
  forall fs stateful st st' filters ls, incl fs all -> pf_filters today stateful st fs = Ok (st', filters) -> mapM pf_filter_lines filters = Ok ls -> tables_ok D (fst st) ->
  (tables_ok D (fst st') /\ (forall m, has (fst st) m -> has (fst st') m) /\
   forall h terms t a, In (h, terms) fs -> fst h <> None -> In t terms -> In a (t_source_address t ++ t_destination_address t) -> has (fst st') a) /\
  exists blocks, Forall2 (fun x b => good_block D today x b /\ (fst (fst x) = None -> b = [])) (all_terms fs) blocks /\ reads (concat ls) (concat blocks).
Proof.
  intros Ck Po. induction fs as [|(h, terms) fs IH]; intros stateful st st' filters ls Inc H Hm T; cbn [pf_filters] in H.
  - apply ok_inj in H. injection H as <- <-. cbn [mapM] in Hm. apply ok_inj in Hm. subst ls. split.
    + split; [exact T|]. split; [auto|]. intros h terms t a [].
    + exists []. split; [constructor|apply reads_nil].
  - assert (Ih : In (h, terms) all) by (apply Inc; left; reflexivity). assert (Inc' : incl fs all) by (intros x I; apply Inc; right; exact I).
    destruct (fst h) as [allopts|] eqn:Eh.
    + destruct (negb _) in H; [discriminate H|]. apply bind_ok in H. destruct H as (af & Haf & H). apply bind_ok in H. destruct H as ((s, es) & Hes & H).
      apply bind_ok in H. destruct H as ((s', more) & Hmore & H). apply ok_inj in H. injection H as <- <-.
      cbn [mapM] in Hm. apply bind_ok in Hm. destruct Hm as (l & Hl & Hm). apply bind_ok in Hm. destruct Hm as (ls' & Hls & Hm). apply ok_inj in Hm. subst ls.
      destruct (po_headers _ _ _ Po h terms Ih ltac:(congruence)) as (name & opts & Ha & Wn & Cc). assert (Ea : allopts = name :: opts) by (unfold pf_asks in Ha; congruence). subst allopts. cbn [tl] in *.
      assert (G : forall t, In t terms -> term_addresses D t) by (intros t It l' Il; exact (po_names _ _ _ Po h terms t l' Ih ltac:(congruence) It Il)).
      destruct (terms_book D _ _ _ _ _ _ _ _ _ Hes G T) as (T1 & K1 & A1).
      destruct (IH _ _ _ _ _ Inc' Hmore Hls T1) as ((T2 & K2 & A2) & blocks & F & R). split.
      * split; [exact T2|]. split; [auto|]. intros h' terms' t a [E|I] N It Ia; [injection E as <- <-; apply K2, (A1 t a It Ia)|exact (A2 h' terms' t a I N It Ia)].
      * assert (X : exists lt, mapM pf_term es = Ok lt) by (unfold pf_filter_lines in Hl; apply bind_ok in Hl; destruct Hl as (lt & X & _); eauto). destruct X as (lt & X).
        pose proof (in_map (fun f : (option (list string) * list string) * list term => (match fst (fst f) with Some _ => ["packetfilter"] | None => [] end, snd f)) _ _ Ih) as If.
        cbn [fst snd] in If. rewrite Eh in If.
        assert (Ns : In "nostate" opts -> (if str_in "nostate" opts then false else stateful) = false) by (intros I; apply str_in_spec in I; rewrite I; reflexivity).
        destruct (terms_blocks D today _ terms h name opts _ af Ck If Ha Haf Ns _ _ _ _ _ _ Hes X (incl_refl _) G
          (fun t It Fo M => po_terms _ _ _ Po h terms t Ih ltac:(congruence) It Fo M)) as (bl & Fb & Rb).
        exists (bl ++ blocks). split.
        -- unfold all_terms in *. cbn [flat_map fst snd]. apply Forall2_app; [|exact F]. clear - Fb Eh. induction Fb; cbn [map]; constructor; [split; [assumption|cbn [fst]; congruence]|assumption].
        -- cbn [concat]. rewrite concat_app. apply reads_app; [|exact R].
           assert (En : asa_name h = name) by (unfold asa_name; rewrite Eh; reflexivity). rewrite En in Hl.
           exact (filter_lines_reads _ _ _ _ _ _ _ Wn Cc (proj1 (family_spec _ _ Haf)) X Rb Hl).
    + destruct (IH _ _ _ _ _ Inc' H Hm T) as ((T2 & K2 & A2) & blocks & F & R). split.
      * split; [exact T2|]. split; [exact K2|]. intros h' terms' t a [E|I] N It Ia; [injection E as <- <-; contradiction|exact (A2 h' terms' t a I N It Ia)].
      * exists (map (fun _ => []) terms ++ blocks). split.
        -- unfold all_terms in *. cbn [flat_map fst snd]. apply Forall2_app; [|exact F]. clear - Eh. induction terms as [|t terms IH]; cbn [map]; constructor; [|exact IH].
           split; [|reflexivity]. apply empty_block. intros d p o _ (nm & op & a & m & Ha & _). unfold pf_asks in Ha. congruence.
        -- rewrite concat_app. replace (concat (map (fun _ : term => @nil pf_rule) terms)) with (@nil pf_rule) by (clear; induction terms; [reflexivity|exact IHterms]). exact R.
Qed.

(** ** Reading of the tables *)
Definition table_texts (x : string * list net) : list string :=
  map prefixlen_text (py_sorted key_leb (filter (fun n => ver_eqb (nver n) V4) (snd x)) ++ py_sorted key_leb (filter (fun n => ver_eqb (nver n) V6) (snd x))).
Definition table_line (x : string * list net) : string := ("table <" ++ fst x ++ "> {" ++ join ", " (table_texts x) ++ "}")%string.
Definition table_of (x : string * list net) : string * list string := (("<" ++ fst x ++ ">")%string, table_texts x).
Lemma sort_in {A} (leb : A -> A -> bool) l x : In x (py_sorted leb l) <-> In x l.
Proof. split; intros I; [apply (Permutation_in _ (py_sorted_perm leb l)) in I; exact I|apply (Permutation_in _ (Permutation_sym (py_sorted_perm leb l))); exact I]. Qed.
Lemma texts_in x w : In w (table_texts x) <-> exists m, In m (snd x) /\ w = prefixlen_text m.
Proof.
  unfold table_texts. rewrite in_map_iff. split.
  - intros (m & <- & I). exists m. split; [|reflexivity]. apply in_app_or in I. destruct I as [I|I]; apply sort_in, filter_In in I; apply I.
  - intros (m & I & ->). exists m. split; [reflexivity|]. apply in_or_app. destruct (nver m) eqn:V; [left|right].
    all: apply sort_in, filter_In; split; [exact I|rewrite V; reflexivity].
Qed.
Lemma tables_whole bs rest : whole_lines "" (flat_map pf_table bs ++ rest) = map table_line bs ++ whole_lines "" rest.
Proof.
  induction bs as [|x bs IH]; [reflexivity|]. cbn [flat_map map app]. rewrite <- app_assoc. unfold pf_table at 1. fold (table_texts x). rewrite table_whole, IH.
  unfold table_line. rewrite !append_assoc. reflexivity.
Qed.
Lemma table_words D b x : tables_ok D b -> In x b -> seg (table_line x) ("table" :: ("<" ++ fst x ++ ">")%string :: "{" :: table_texts x ++ ["}"]) /\ ~ In "}" (table_texts x).
Proof.
  intros [T1 T2] I. destruct x as [n l]. assert (P : forall w, In w (table_texts (n, l)) -> pf_word w).
  { intros w J. apply texts_in in J. destruct J as (m & J & ->). apply prefix_pf. apply (T2 n l m I J). }
  split; [|intros J; exact (pf_not_brace _ (P _ J) eq_refl)].
  assert (E : table_line (n, l) = ("table" ++ " " ++ (("<" ++ n ++ ">") ++ " " ++ ("{" ++ join ", " (table_texts (n, l)) ++ "}")))%string) by (unfold table_line; cbn [fst]; rewrite !append_assoc; reflexivity).
  rewrite E. apply seg_key; [apply lit; reflexivity|]. cbn [fst]. apply seg_key; [split; [discriminate|rewrite !forall_char_app, (T1 n l I); reflexivity]|]. apply seg_tight, seg_commas, P.
Qed.
Lemma tables_read D b bs : tables_ok D b -> incl bs b -> forall rest tables rules, read_lines rest = Some (tables, rules) ->
  read_lines (map pf_words (map table_line bs) ++ rest) = Some (map table_of bs ++ tables, rules).
Proof.
  intros T. induction bs as [|x bs IH]; intros Inc rest tables rules H; [exact H|]. cbn [map app read_lines]. rewrite (IH (fun y I => Inc y (or_intror I)) _ _ _ H).
  destruct (table_words D b x T (Inc x (or_introl eq_refl))) as (S & N). rewrite (seg_pf _ _ S). change (String.eqb "table" "table") with true. cbv iota.
  unfold read_table. change (String.eqb "table" "table" && String.eqb "{" "{") with true. cbv iota. rewrite (upto_list _ [] N). reflexivity.
Qed.
Lemma bracket_inj a b : ("<" ++ a ++ ">")%string = ("<" ++ b ++ ">")%string -> a = b.
Proof.
  intros E. injection E as E. revert b E. induction a as [|c a IH]; intros b E.
  - destruct b as [|d b]; [reflexivity|]. injection E as _ E. destruct b; discriminate E.
  - destruct b as [|d b]; [injection E as _ E; destruct a; discriminate E|]. injection E as -> E. f_equal. apply IH, E.
Qed.
Lemma holds_book D b bs n x : tables_ok D b -> (forall y, In y bs <-> In y b) -> on_net x ->
  (table_holds (map table_of bs) ("<" ++ n ++ ">")%string x <-> exists l k, In (n, l) b /\ In k l /\ covers k x).
Proof.
  intros [T1 T2] P On. unfold table_holds. split.
  - intros (l & w & I & J & S). apply in_map_iff in I. destruct I as ((n', l') & E & I). unfold table_of in E. cbn [fst] in E.
    assert (E1 : n' = n) by (apply bracket_inj; congruence). assert (E2 : l = table_texts (n', l')) by congruence. subst n' l. clear E. apply texts_in in J. destruct J as (m & J & ->). cbn [snd] in J. apply P in I.
    exists l', m. split; [exact I|]. split; [exact J|]. apply (range_text m x (proj1 (proj2 (T2 n l' m I J))) On). exact S.
  - intros (l & k & I & J & C). exists (table_texts (n, l)), (prefixlen_text k). split; [|split].
    + apply in_map_iff. exists (n, l). split; [reflexivity|]. apply P, I.
    + apply texts_in. exists k. auto.
    + apply (range_text k x (proj1 (proj2 (T2 n l k I J))) On). exact C.
Qed.

(** ** Whole policies *)
Lemma quick_decides tables rules d p o : (forall r, In r rules -> pr_quick r = true) ->
  (pf_decides (tables, rules) d p o <-> first_says (fun r o => rule_applies tables d p r /\ pr_action r = o) rules o).
Proof.
  intros Q. unfold pf_decides, first_says. cbn [fst snd]. split.
  - intros (before & r & after & E & A & B & C & _). exists before, r, after. split; [exact E|]. split; [auto|]. intros y a I (Y1 & <-). apply (C y I); [|exact Y1]. apply Q. rewrite E. apply in_or_app. left. exact I.
  - intros (before & r & after & E & (A & B) & C). exists before, r, after. split; [exact E|]. split; [exact A|]. split; [exact B|]. split.
    + intros y I _ Y. apply (C y _ I). auto.
    + left. apply Q. rewrite E. apply in_or_app. right. left. reflexivity.
Qed.
Lemma says_one today d p x o o' : pf_term_says today d p x o -> pf_term_says today d p x o' -> o = o'.
Proof. destruct x as [h t]. intros (n1 & o1 & a1 & m1 & _ & _ & _ & _ & _ & _ & E1 & V1) (n2 & o2 & a2 & m2 & _ & _ & _ & _ & _ & _ & E2 & V2). congruence. Qed.
Theorem pf_policy_decides today D fs lines : pf_policy_ok today D fs -> pf_text today fs = Ok lines ->
  exists conf, pf_read lines = Some conf /\
    forall d p, In d ["in"; "out"] -> pf_traffic p -> opens p \/ stateless fs -> forall o, pf_decides conf d p o <-> first_says (pf_term_says today d p) (all_terms fs) o.
Proof.
  intros Po H. unfold pf_text in H. apply bind_ok in H. destruct H as ([] & Ck & H). apply bind_ok in H. destruct H as ((st, filters) & Hf & H). apply bind_ok in H. destruct H as (ls & Hl & H). apply ok_inj in H. subst lines.
  assert (T0 : tables_ok D (fst (@nil (string * list net), @nil (string * string)))) by (constructor; [intros n l []|intros n l m []]).
  destruct (filters_spec D today fs Ck Po fs true _ _ _ _ (incl_refl _) Hf Hl T0) as ((T & _ & A) & blocks & F & (R1 & R2)).
  set (bs := py_sorted (fun x y => str_leb (fst x) (fst y)) (fst st)) in *.
  assert (P : forall y, In y bs <-> In y (fst st)) by (intros y; apply sort_in).
  exists (map table_of bs, concat blocks). split.
  - unfold pf_read. rewrite tables_whole, map_app. rewrite <- (app_nil_r (concat ls)), (whole_plain _ [] R1). cbn [whole_lines is_empty]. rewrite app_nil_r.
    rewrite <- (app_nil_r (map table_of bs)). apply (tables_read D (fst st) bs T); [intros y I; apply P, I|].
    rewrite <- (app_nil_r (map pf_words (concat ls))), <- (app_nil_r (concat blocks)). apply R2. reflexivity.
  - intros d p Id Tp Op o.
    assert (Q : forall r, In r (concat blocks) -> pr_quick r = true).
    { intros r I. apply in_concat in I. destruct I as (b & Ib & Ir). clear - F Ib Ir. induction F as [|x b' xs bs' G F IH]; [destruct Ib|]. destruct Ib as [<-|Ib]; [apply (proj1 G), Ir|apply IH, Ib]. }
    rewrite (quick_decides _ _ _ _ _ Q). apply first_says_blocks.
    assert (Rt : forall x, In x (all_terms fs) -> fst (fst x) <> None -> right_for D (map table_of bs) (snd x)).
    { intros (h, t) I N. cbn [fst snd] in *. unfold all_terms in I. apply in_flat_map in I. destruct I as ((h', terms) & If & I). cbn [fst snd] in I. apply in_map_iff in I. destruct I as (t' & E & I). injection E as -> ->.
      assert (X : forall l, In l [t_source_address t; t_destination_address t] -> tables_right (map table_of bs) D l).
      { intros l Il. destruct (po_names _ _ _ Po h terms t l If N I Il) as (_ & _ & S). intros n x In_ On. unfold table_name. rewrite (holds_book D (fst st) bs (pf_short n) x T P On). split.
        - intros (l' & k & J & Jk & C). destruct (tk_nets _ _ T _ _ _ J Jk) as (E & (_ & _ & G)). rewrite <- E. apply G, C.
        - intros Dx. apply (S n x In_) in Dx. destruct Dx as (m & Im & E & C). rewrite <- E. apply (A h terms t m If N I); [|exact C].
          apply in_or_app. destruct Il as [<-|[<-|[]]]; [left|right]; exact Im. }
      split; apply X; cbn; auto. }
    assert (St : forall x, In x (all_terms fs) -> opens p \/ forall name opts, pf_asks (fst x) name opts -> In "nostate" opts).
    { intros (h, t) I. destruct Op as [Op|Op]; [left; exact Op|right]. intros name opts Ha. unfold all_terms in I. apply in_flat_map in I. destruct I as ((h', terms) & If & I). cbn [fst snd] in *.
      apply in_map_iff in I. destruct I as (t' & E & I). injection E as -> ->. exact (Op h terms name opts If Ha). }
    clear - F Rt St Tp Id. induction F as [|x b xs bs' ((G1 & G2) & G3) F IH]; constructor.
    + split; [|intros a a' S1 S2; exact (says_one _ _ _ _ _ _ S1 S2)].
      intros a. destruct (fst (fst x)) eqn:Ex.
      * apply G2; [apply Rt; [left; reflexivity|congruence]|exact Tp|exact Id|apply St; left; reflexivity].
      * rewrite (G3 eq_refl). split; [intros (y & [] & _)|]. destruct x as [h t]. intros (nm & op & ac & m & Ha & _). unfold pf_asks in Ha. cbn [fst] in Ex. congruence.
    + apply IH; [intros y I; apply Rt; right; exact I|intros y I; apply St; right; exact I].
Qed.
