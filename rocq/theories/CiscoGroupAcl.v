(** Whole policies with object groups: the access lists decide as the terms do. *)
From Coq Require Import Lia ZifyBool ZifyNat.
From Verif Require Import SpecCiscoRules SpecSum IPFacts BaseFacts PyStrFacts TextProofs WrapProofs PortProofs GenProofs GenProofs2 CiscoProofs CiscoProofs2 CiscoTerm CiscoAcl CiscoEst CiscoDup CiscoGroupRead CiscoGroupTerm.
Local Open Scope string_scope.
Local Open Scope list_scope.
Local Open Scope Z_scope.

(** ** Selection *)
Lemma set_name_same t : set_name (t_name t) t = t.
Proof. destruct t; reflexivity. Qed.
Lemma length_same name n limit : fix_term_length abbreviation_table name false false limit = Ok n -> n = name.
Proof. unfold fix_term_length. destruct (slen name <=? limit); [intros H; apply ok_inj in H; congruence|discriminate]. Qed.
Lemma valid_expired today t : expired today t = negb (valid_on today t).
Proof. unfold expired, valid_on. destruct (t_expiration t) as [d|]; [|reflexivity]. destruct (Z.ltb_spec today d), (Z.leb_spec d today); try reflexivity; lia. Qed.
Lemma valid_force today t : valid_on today t = true <-> in_force today t.
Proof.
  unfold valid_on, in_force. destruct (t_expiration t) as [d|].
  - rewrite Z.ltb_lt. split; [intros H x E; injection E as <-; exact H|auto].
  - split; [discriminate|reflexivity].
Qed.
Lemma select_plain c today terms : (forall t, In t terms -> in_force today t -> t_option t = [] /\ t_restrict_address_family t = None) ->
  forall seen ts, cisco_select c today seen terms = Ok ts -> ts = filter (valid_on today) terms.
Proof.
  induction terms as [|t rest IH]; intros P seen ts H; [apply ok_inj in H; subst; reflexivity|].
  cbn [cisco_select] in H. destruct (str_in (t_name t) seen); [discriminate H|].
  destruct (fix_term_length _ _ _ _ _) as [n|e] eqn:En; [|discriminate H]. cbn [bind] in H.
  destruct (fix_high_ports _ _ _ _) as [t'|e] eqn:Eh; [|discriminate H]. cbn [bind] in H.
  destruct (cisco_select c today (t_name t :: seen) rest) as [ts0|e] eqn:Es; [|discriminate H]. cbn [bind] in H.
  specialize (IH (fun t I => P t (or_intror I)) _ _ Es). apply length_same in En. subst n. rewrite set_name_same in Eh.
  pose proof (fix_high_expiration _ _ _ _ _ Eh) as Ee.
  assert (Ex : expired today t' = negb (valid_on today t)) by (rewrite <- valid_expired; unfold expired; rewrite Ee; reflexivity).
  rewrite Ex in H. cbn [filter]. destruct (valid_on today t) eqn:V; cbn [negb] in H.
  - destruct (P t (or_introl eq_refl) (proj1 (valid_force _ _) V)) as (P1 & P2).
    pose proof (fix_high_ports_spec _ _ _ _ _ Eh) as S. cbv zeta in S. destruct S as (_ & _ & S).
    assert (E : t' = t).
    { destruct S as [(_ & S)|[((o & I & _) & _)|((o & I & _) & _)]]; [exact S|rewrite P1 in I; destruct I..]. }
    subst t'. rewrite P2 in H. apply ok_inj in H. subst ts. f_equal. exact IH.
  - rewrite IH in H. destruct (match t_restrict_address_family t' with Some f => _ | None => false end); apply ok_inj in H; symmetry; exact H.
Qed.
Lemma first_says_filter {A} (M : A -> string -> Prop) keep l act : (forall x, In x l -> keep x = false -> forall a, ~ M x a) ->
  (first_says M (filter keep l) act <-> first_says M l act).
Proof.
  induction l as [|x l IH]; intros H; [reflexivity|]. cbn [filter]. specialize (IH (fun y I => H y (or_intror I))).
  destruct (keep x) eqn:E.
  - rewrite !first_says_cons, IH. reflexivity.
  - rewrite first_says_cons, IH. split; [intros F; right; split; [exact F|intros a X; destruct (H x (or_introl eq_refl) E a X)]|].
    intros [X|(X & _)]; [destruct (H x (or_introl eq_refl) E _ X)|exact X].
Qed.

(** ** Entries *)
Lemma flags_cases flags : NoDup flags -> incl flags group_flags ->
  flags = [] \/ flags = ["noverbose"] \/ flags = ["remove_duplicate_network_objectgroups"] \/
  flags = ["noverbose"; "remove_duplicate_network_objectgroups"] \/ flags = ["remove_duplicate_network_objectgroups"; "noverbose"].
Proof.
  intros N I. destruct flags as [|a [|b [|c r]]].
  - auto.
  - destruct (I a (or_introl eq_refl)) as [<-|[<-|[]]]; auto.
  - assert (Ne : a <> b) by (intros ->; inversion N as [|? ? X _]; apply X; left; reflexivity).
    destruct (I a (or_introl eq_refl)) as [<-|[<-|[]]]; destruct (I b (or_intror (or_introl eq_refl))) as [<-|[<-|[]]]; try congruence; auto.
  - exfalso. inversion N as [|? ? X N']; subst. inversion N' as [|? ? Y _]; subst.
    pose proof (I a (or_introl eq_refl)) as Ia. pose proof (I b (or_intror (or_introl eq_refl))) as Ib. pose proof (I c (or_intror (or_intror (or_introl eq_refl)))) as Ic.
    assert (a <> b) by (intros ->; apply X; left; reflexivity). assert (a <> c) by (intros ->; apply X; right; left; reflexivity).
    assert (b <> c) by (intros ->; apply Y; left; reflexivity).
    destruct Ia as [<-|[<-|[]]], Ib as [<-|[<-|[]]], Ic as [<-|[<-|[]]]; congruence.
Qed.
Definition group_entry_of (k : cisco_class) (today : Z) (f : cheader * list term) (e : centry) : Prop :=
  exists v name flags verbose ts l, group_header (fst f) v name flags /\ group_select k (af_of v) verbose today (snd f) = Ok ts /\
    mapM (group_term k (af_of v) verbose) ts = Ok l /\
    e = mkEntry name (group_type v) (shown l) (Some (af_of v, ts)) false (ch_comment (fst f)).
Lemma entries_of k today hs : (forall h terms, In (h, terms) hs -> exists v name flags, group_header h v name flags) ->
  forall fl es fl', cisco_entries k today fl hs = Ok (es, fl') -> Forall2 (group_entry_of k today) hs es /\
    (hs <> [] -> exists verbose h terms v name flags, In (h, terms) hs /\ group_header h v name flags /\ last hs (h, terms) = (h, terms) /\
       fl' = Some (verbose, str_in "remove_duplicate_network_objectgroups" flags)).
Proof.
  induction hs as [|(h, terms) hs IH]; intros P fl es fl' H.
  - cbn [cisco_entries] in H. apply ok_inj in H. apply pair_equal_spec in H. destruct H as (<- & <-). split; [constructor|congruence].
  - cbn [cisco_entries] in H. destruct (P h terms (or_introl eq_refl)) as (v & name & flags & G).
    pose proof G as (Eo & Nf & If & Nn & _). rewrite Eo in H.
    assert (N1 : String.eqb name "noverbose" = false) by (apply String.eqb_neq; intros ->; apply Nn; cbn; tauto).
    assert (N2 : String.eqb name "remove_duplicate_network_objectgroups" = false) by (apply String.eqb_neq; intros ->; apply Nn; cbn; tauto).
    assert (N3 : String.eqb name "configure_replace_compatible" = false) by (apply String.eqb_neq; intros ->; apply Nn; cbn; tauto).
    set (verbose := negb (str_in "noverbose" (name :: group_type v :: flags))) in *.
    assert (R : remove_first "remove_duplicate_network_objectgroups" (remove_first "noverbose" (name :: group_type v :: flags)) = [name; group_type v] /\
      str_in "remove_duplicate_network_objectgroups" (remove_first "noverbose" (name :: group_type v :: flags)) = str_in "remove_duplicate_network_objectgroups" flags).
    { assert (S1 : String.eqb "noverbose" name = false) by (rewrite String.eqb_sym; exact N1).
      assert (S2 : String.eqb "remove_duplicate_network_objectgroups" name = false) by (rewrite String.eqb_sym; exact N2).
      destruct (flags_cases flags Nf If) as [->|[->|[->|[->| ->]]]]; destruct v; unfold str_in, memb;
        cbn -[String.eqb]; rewrite ?N1, ?N2, ?S1, ?S2; cbn -[String.eqb]; rewrite ?N1, ?N2, ?S1, ?S2; split; reflexivity. }
    destruct R as (R1 & R2). rewrite R1, R2 in H. cbn [nth] in H.
    assert (T : str_in (group_type v) good_filters = true) by (destruct v; reflexivity). rewrite T in H. cbn [negb] in H.
    assert (M : String.eqb (group_type v) "mixed" = false) by (destruct v; reflexivity). rewrite M in H. cbn [mapM] in H.
    destruct (cisco_entry k today verbose _ false name (group_type v) h [name; group_type v] terms) as [e|x] eqn:E; [|discriminate H]. cbn [bind] in H.
    destruct (cisco_entries k today _ hs) as [(more, fl2)|x] eqn:Er; [|discriminate H]. cbn [bind] in H.
    apply ok_inj in H. apply pair_equal_spec in H. destruct H as (<- & <-).
    destruct (IH (fun h t I => P h t (or_intror I)) _ _ _ Er) as (F & La). cbn [app]. split.
    + constructor; [|exact F]. unfold cisco_entry in E.
      assert (C : str_in "configure_replace_compatible" [name; group_type v] = false).
      { unfold str_in, memb. cbn -[String.eqb]. rewrite ?N3. rewrite (String.eqb_sym _ name), ?N3. destruct v; reflexivity. }
      destruct v; cbn [group_type String.eqb] in E.
      * change (String.eqb "object-group" "extended") with false in E. change (String.eqb "object-group" "standard") with false in E.
        change (String.eqb "object-group" "object-group") with true in E. cbn [andb] in E. cbv iota in E.
        destruct (group_select k 4 verbose today terms) as [ts|x] eqn:S; [|discriminate E]. cbn [bind] in E.
        destruct (mapM (group_term k 4 verbose) ts) as [l|x] eqn:L; [|discriminate E]. cbn [bind] in E. apply ok_inj in E.
        cbn [group_type] in C. rewrite C in E. exists V4, name, flags, verbose, ts, l. cbn [fst snd]. split; [exact G|]. split; [exact S|]. split; [exact L|]. symmetry. exact E.
      * change (String.eqb "object-group-inet6" "extended") with false in E. change (String.eqb "object-group-inet6" "standard") with false in E.
        change (String.eqb "object-group-inet6" "object-group") with false in E. change (String.eqb "object-group-inet6" "object-group-inet6") with true in E.
        cbn [andb] in E. cbv iota in E.
        destruct (group_select k 6 verbose today terms) as [ts|x] eqn:S; [|discriminate E]. cbn [bind] in E.
        destruct (mapM (group_term k 6 verbose) ts) as [l|x] eqn:L; [|discriminate E]. cbn [bind] in E. apply ok_inj in E.
        cbn [group_type] in C. rewrite C in E. exists V6, name, flags, verbose, ts, l. cbn [fst snd]. split; [exact G|]. split; [exact S|]. split; [exact L|]. symmetry. exact E.
    + intros _. destruct hs as [|f hs'].
      * cbn [cisco_entries] in Er. apply ok_inj in Er. apply pair_equal_spec in Er. destruct Er as (_ & <-).
        exists verbose, h, terms, v, name, flags. split; [left; reflexivity|]. split; [exact G|]. split; reflexivity.
      * destruct (La ltac:(discriminate)) as (vb & h' & t' & v' & n' & fl0 & I & G' & L & E'). exists vb, h', t', v', n', fl0.
        split; [right; exact I|]. split; [exact G'|]. split; [exact L|exact E'].
Qed.

(** ** The text of a list *)
Lemma shown_words l : words_of (lns (shown l)) = flat_map (fun ls => words_of (lns ls)) l.
Proof.
  unfold shown. induction l as [|ls l IH]; [reflexivity|]. cbn [map filter flat_map]. rewrite <- IH. destruct (is_empty (join lf ls)) eqn:E; cbn [negb].
  - assert (X : words_of (lns ls) = []).
    { destruct ls as [|x ls]; [reflexivity|]. rewrite <- split_join_lns by discriminate. destruct (join lf (x :: ls)); [reflexivity|discriminate E]. }
    rewrite X. reflexivity.
  - destruct ls as [|x ls]; [discriminate E|]. change (lns (join lf (x :: ls) :: ?r)) with (split_char newline (join lf (x :: ls)) ++ lns r).
    rewrite split_join_lns by discriminate. apply words_app.
Qed.
Lemma shown_shape (P : string -> Prop) l : P "" -> Forall (fun ls => Forall P (lns ls)) l -> Forall P (lns (shown l)).
Proof.
  intros P0 F. apply Forall_forall. intros x I. unfold lns in I. apply in_flat_map in I. destruct I as (s & I & J).
  unfold shown in I. apply filter_In in I. destruct I as (I & _). apply in_map_iff in I. destruct I as (ls & <- & I).
  rewrite Forall_forall in F. specialize (F ls I). destruct ls as [|y ls].
  - destruct J as [<-|[]]. exact P0.
  - rewrite split_join_lns in J by discriminate. rewrite Forall_forall in F. exact (F x J).
Qed.
Definition type_version (ty : string) : ver := if String.eqb ty "object-group" then V4 else V6.
Lemma type_version_of v : type_version (group_type v) = v. Proof. destruct v; reflexivity. Qed.
(** The lines before the terms *)
Definition list_intro (k : cisco_class) (verbose : bool) (e : centry) : list string :=
  if verbose then tag_lines k (e_name e) (e_type e) ++ header_remarks k e else [].
Definition list_rules (k : cisco_class) (verbose : bool) (e : centry) : list (list string) := words_of (lns (list_intro k verbose e ++ e_terms e)).
Definition entry_items (k : cisco_class) (verbose : bool) (e : centry) : list citem :=
  let v := type_version (e_type e) in let head := group_list_head k v (e_name e) in
  [COther ("no " ++ head)%string; CAcl (family_name v) head (list_rules k verbose e)].
Lemma intro_remarks k verbose e : In k [class_ios; class_xr; class_nx] -> In (e_type e) ["object-group"; "object-group-inet6"] -> remark_lines (list_intro k verbose e).
Proof.
  intros Hk Ht. unfold list_intro. destruct verbose; [|constructor]. apply Forall_app.
  assert (St : String.eqb (e_type e) "standard" = false) by (destruct Ht as [<-|[<-|[]]]; reflexivity). split.
  - unfold tag_lines. rewrite St. cbn [andb]. destruct Hk as [<-|[<-|[<-|[]]]]; cbn; repeat constructor; eexists; (split; [reflexivity|reflexivity]).
  - unfold header_remarks. rewrite St. rewrite andb_false_r. cbn [andb]. apply Forall_forall. intros x I. apply in_map_iff in I. destruct I as (y & <- & I).
    exists y. split; [reflexivity|]. apply in_flat_map in I. destruct I as (z & _ & I). apply piece_infix in I. destruct I as (_ & I).
    rewrite has_char_app, I. reflexivity.
Qed.
Lemma head_family k v name : In k [class_ios; class_xr; class_nx] -> acl_head (group_list_head k v name) = Some (family_name v).
Proof. intros Hk. destruct v; destruct Hk as [<-|[<-|[<-|[]]]]; destruct name; reflexivity. Qed.
Lemma filter_lines_group k v name : In k [class_ios; class_xr; class_nx] ->
  filter_lines k name (group_type v) false = Ok [("no " ++ group_list_head k v name)%string; group_list_head k v name].
Proof. intros Hk. destruct v; destruct Hk as [<-|[<-|[<-|[]]]]; reflexivity. Qed.
Lemma head_line k v name : has_char newline name = false -> has_char newline (group_list_head k v name) = false.
Proof.
  intros N. unfold group_list_head. destruct v; [destruct (String.eqb _ "ciscoxr"); [|destruct (String.eqb _ "cisconx")]|]; rewrite has_char_app, N; reflexivity.
Qed.
Lemma entry_reads k verbose e v l : In k [class_ios; class_xr; class_nx] -> e_type e = group_type v -> has_char newline (e_name e) = false -> e_replace e = false ->
  Forall (fun x => shifted x \/ x = "") (lns (e_terms e)) -> entry_text k verbose e = Ok l ->
  reads (lns (l ++ [""; "exit"; ""])) (entry_items k verbose e).
Proof.
  intros Hk Ht Hn Hr Hs H. unfold entry_text in H. rewrite Ht, Hr, (filter_lines_group k v (e_name e) Hk) in H. cbn [bind] in H. apply ok_inj in H. subst l.
  rewrite <- Ht. fold (list_intro k verbose e).
  assert (R : remark_lines (list_intro k verbose e)) by (apply intro_remarks; [exact Hk|]; rewrite Ht; destruct v; cbn; tauto).
  unfold entry_items. rewrite Ht, type_version_of. set (head := group_list_head k v (e_name e)).
  assert (X : lns (([("no " ++ head)%string; head] ++ list_intro k verbose e ++ e_terms e) ++ [""; "exit"; ""]) =
    [("no " ++ head)%string] ++ (head :: (lns (list_intro k verbose e ++ e_terms e) ++ [""]) ++ ["exit"; ""])).
  { pose proof (head_line k v (e_name e) Hn) as N. fold head in N. rewrite lns_app, lns_app. rewrite (lns_plain [_; _]).
    - cbn [app]. rewrite <- !app_assoc. reflexivity.
    - intros x [<-|[<-|[]]]; [rewrite has_char_app, N; reflexivity|exact N]. }
  rewrite X. change [COther ("no " ++ head)%string; CAcl (family_name v) head (list_rules k verbose e)]
    with ([COther ("no " ++ head)%string] ++ [CAcl (family_name v) head (list_rules k verbose e)]).
  apply reads_app; [apply reads_other; reflexivity|].
  assert (Y : list_rules k verbose e = words_of (lns (list_intro k verbose e ++ e_terms e) ++ [""])).
  { rewrite words_app. unfold list_rules. change (words_of [""]) with (@nil (list string)). rewrite app_nil_r. reflexivity. }
  rewrite Y. apply reads_acl; [apply head_family, Hk|]. rewrite lns_app. apply Forall_app. split; [|constructor; [right; reflexivity|constructor]].
  apply Forall_app. split; [|exact Hs]. rewrite (remarks_plain _ R). apply remarks_shape, R.
Qed.

(** ** The text of a policy *)
Definition good_entry (k : cisco_class) (e : centry) : Prop :=
  exists v ts, e_type e = group_type v /\ has_char newline (e_name e) = false /\ e_replace e = false /\ e_objects e = Some (af_of v, ts) /\
    (forall t, In t ts -> group_term_ok v t) /\ Forall (fun x => (shifted x \/ x = "") /\ shaped (split_ws x)) (lns (e_terms e)).
Definition entry_side (es : list centry) (v : ver) (l : list net) : Prop := exists e ts, In e es /\ e_objects e = Some (af_of v, ts) /\ side_of ts l.
Definition entry_port (es : list centry) (r : prange) : Prop := exists e v ts, In e es /\ e_objects e = Some (af_of v, ts) /\ port_of ts r.
Lemma family_inj v v' : family_name v = family_name v' -> v = v'.
Proof. destruct v, v'; (reflexivity || discriminate). Qed.
Definition entries_apart (e e' : centry) : Prop := forall v l l', entry_side [e] v l -> entry_side [e'] v l' ->
  address_of_version l (Some v) <> [] -> address_of_version l' (Some v) <> [] -> first_name l <> first_name l'.
Lemma target_reads k verbose es : In k [class_ios; class_xr; class_nx] -> Forall (good_entry k) es -> forall target items out,
  cisco_target k verbose target es = Ok out -> reads (lns target) items ->
  exists G, reads (lns out) (G ++ items ++ flat_map (entry_items k verbose) es) /\
    (forall i, In i G -> (exists v l, entry_side es v l /\ address_of_version l (Some v) <> [] /\ i = group_item v l) \/ (exists r, entry_port es r /\ i = port_item r)) /\
    (forall v l, entry_side es v l -> address_of_version l (Some v) <> [] -> net_named v (first_name l) G) /\
    (forall r, entry_port es r -> port_named (port_key r) G) /\
    (ForallOrdPairs entries_apart es -> forall v, NoDup (map fst (groups_of (family_name v) G))).
Proof.
  intros Hk F. induction F as [|e es Ge F IH]; intros target items out H R.
  - cbn [cisco_target] in H. apply ok_inj in H. subst out. exists []. cbn [flat_map app]. rewrite app_nil_r. split; [exact R|].
    split; [intros i []|]. split; [intros v l (e & ts & [] & _)|]. split; [intros r (e & v & ts & [] & _)|]. intros _ v. constructor.
  - cbn [cisco_target] in H. destruct (entry_text k verbose e) as [l|x] eqn:El; [|discriminate H]. cbn [bind] in H.
    destruct Ge as (v & ts & Ht & Hn & Hr & Ho & Hg & Hs). rewrite Ho, Hr in H.
    pose proof (entry_reads k verbose e v l Hk Ht Hn Hr (Forall_impl _ (fun x X => proj1 X) Hs) El) as Re.
    (* the groups *)
    assert (Gr : exists g, reads (lns (match ts with _ :: _ => [join lf (object_groups (af_of v) ts)] | [] => [] end)) g /\
       (forall i, In i g -> (exists l, side_of ts l /\ address_of_version l (Some v) <> [] /\ i = group_item v l) \/ (exists r, port_of ts r /\ i = port_item r)) /\
       (forall l, side_of ts l -> address_of_version l (Some v) <> [] -> net_named v (first_name l) g) /\
       (forall r, port_of ts r -> port_named (port_key r) g) /\ NoDup (map fst (groups_of (family_name v) g))).
    { destruct ts as [|t0 ts0].
      - exists []. split; [exact reads_nil|]. split; [intros i []|]. split; [intros l0 (t & [] & _)|]. split; [intros r (t & [] & _)|constructor].
      - set (ts := t0 :: ts0) in *. destruct (definitions_read v ts Hg [] []) as (g & A & B & C & D & D' & _). exists g. split.
        { unfold lns. cbn [flat_map]. rewrite app_nil_r. unfold object_groups. rewrite split_join_lns by discriminate.
          change (lns (lf :: ?x)) with (["";""] ++ lns x). change g with (([] ++ []) ++ g). apply reads_app; [|exact A].
          change ["";""] with ([""] ++ [""]). apply reads_app; exact reads_blank. }
        split; [exact B|]. split; [intros l0 I J; destruct (C l0 I J) as [[]|X]; exact X|]. split; [intros r I; destruct (D r I) as [[]|X]; exact X|exact D']. }
    destruct Gr as (g & Rg & G1 & G2 & G3 & G4).
    destruct (IH _ (g ++ items ++ entry_items k verbose e) _ H) as (G & RG & K1 & K2 & K3 & K4).
    { assert (X : match Some (af_of v, ts) with Some (af, (_ :: _) as ts0) => [join lf (object_groups af ts0)] | _ => [] end =
                  match ts with _ :: _ => [join lf (object_groups (af_of v) ts)] | [] => [] end) by (destruct ts; reflexivity).
      rewrite !lns_app in *. rewrite ?lns_app. repeat apply reads_app; try assumption. }
    exists (G ++ g). cbn [flat_map]. split; [rewrite <- !app_assoc in *; exact RG|].
    split; [|split; [|split]].
    + intros i I. apply in_app_or in I. destruct I as [I|I].
      * destruct (K1 i I) as [(v' & l' & (e' & ts' & Ie & Eo & Sd) & Ne & Ei)|(r & (e' & v' & ts' & Ie & Eo & Sd) & Ei)].
        -- left. exists v', l'. split; [|auto]. exists e', ts'. split; [right; exact Ie|auto].
        -- right. exists r. split; [|exact Ei]. exists e', v', ts'. split; [right; exact Ie|auto].
      * destruct (G1 i I) as [(l' & Sd & Ne & Ei)|(r & Sd & Ei)].
        -- left. exists v, l'. split; [|auto]. exists e, ts. split; [left; reflexivity|auto].
        -- right. exists r. split; [|exact Ei]. exists e, v, ts. split; [left; reflexivity|auto].
    + intros v' l' (e' & ts' & [<-|Ie] & Eo & Sd) Ne.
      * rewrite Ho in Eo. injection Eo as Ev <-. assert (v' = v) as -> by (destruct v, v'; (reflexivity || discriminate Ev)).
        destruct (G2 l' Sd Ne) as (ls & I). exists ls. apply in_or_app. right. exact I.
      * destruct (K2 v' l') as (ls & I); [exists e', ts'; auto|exact Ne|]. exists ls. apply in_or_app. left. exact I.
    + intros r (e' & v' & ts' & [<-|Ie] & Eo & Sd).
      * rewrite Ho in Eo. injection Eo as _ <-. destruct (G3 r Sd) as (ls & I). exists ls. apply in_or_app. right. exact I.
      * destruct (K3 r) as (ls & I); [exists e', v', ts'; auto|]. exists ls. apply in_or_app. left. exact I.
    + intros Ap v'. inversion Ap as [|? ? A1 A2]; subst. rewrite groups_app, map_app.
      assert (Gv : forall n, In n (map fst (groups_of (family_name v') g)) -> v' = v /\ exists l, entry_side [e] v l /\ address_of_version l (Some v) <> [] /\ n = first_name l).
      { intros n I. apply in_map_iff in I. destruct I as ((n', ls) & En & I). cbn [fst] in En. subst n'. apply groups_in in I. destruct (G1 _ I) as [(l' & S & N & E)|(r & _ & E)]; [|discriminate E].
        unfold group_item in E. injection E as Ef En _. split; [apply family_inj, Ef|]. exists l'. split; [|auto]. exists e, ts. split; [left; reflexivity|auto]. }
      apply NoDup_join.
      * apply K4, A2.
      * destruct v, v'; try exact G4.
        -- destruct (groups_of (family_name V6) g) as [|x r] eqn:E; [constructor|]. destruct (Gv (fst x)) as (X & _); [left; reflexivity|discriminate X].
        -- destruct (groups_of (family_name V4) g) as [|x r] eqn:E; [constructor|]. destruct (Gv (fst x)) as (X & _); [left; reflexivity|discriminate X].
      * intros n I J. destruct (Gv n J) as (-> & l' & S & N & ->). apply in_map_iff in I. destruct I as ((n', ls) & En & I). cbn [fst] in En. subst n'. apply groups_in in I.
        destruct (K1 _ I) as [(v2 & l2 & (e2 & ts2 & Ie & Eo & Sd) & Ne2 & Ei)|(r & _ & Ei)]; [|discriminate Ei]. unfold group_item in Ei. injection Ei as Ef En _. apply family_inj in Ef. subst v2.
        rewrite Forall_forall in A1. apply (A1 e2 Ie v l' l2); try assumption. exists e2, ts2. split; [left; reflexivity|auto].
Qed.

(** ** The policy *)
Lemma acls_groups G : (forall i, In i G -> (exists v l, i = group_item v l) \/ (exists r, i = port_item r)) -> acls_of G = [].
Proof.
  induction G as [|i G IH]; intros H; [reflexivity|]. unfold acls_of. cbn [flat_map].
  destruct (H i (or_introl eq_refl)) as [(v & l & ->)|(r & ->)]; cbn [app]; (apply IH; intros j I; apply H; right; exact I).
Qed.
Lemma acls_app a b : acls_of (a ++ b) = acls_of a ++ acls_of b. Proof. apply flat_map_app. Qed.
Lemma acls_entries k verbose es : acls_of (flat_map (entry_items k verbose) es) =
  map (fun e => (family_name (type_version (e_type e)), group_list_head k (type_version (e_type e)) (e_name e), list_rules k verbose e)) es.
Proof. induction es as [|e es IH]; [reflexivity|]. cbn [flat_map map]. rewrite acls_app, IH. reflexivity. Qed.
Lemma entries_no_groups k verbose es i : In i (flat_map (entry_items k verbose) es) -> (forall f n ls, i <> CGroup f n ls) /\ (forall n ls, i <> CPorts n ls).
Proof.
  intros I. apply in_flat_map in I. destruct I as (e & _ & I). destruct I as [<-|[<-|[]]]; split; discriminate.
Qed.
Definition tag_items : list citem := [COther "! $Id:$"; COther "! $Date:$"; COther "! $Revision:$"].
Lemma tags_read : reads (lns (add_repository_tags "! " true true true false)) tag_items.
Proof. intros rest. cbn. destruct (read_config MOut rest); reflexivity. Qed.
Lemma select_group k v verbose today terms ts : (forall t, In t terms -> in_force today t -> group_term_ok v t) ->
  group_select k (af_of v) verbose today terms = Ok ts ->
  ts = filter (fun t => has_addresses (af_of v) (t_source_address t) && has_addresses (af_of v) (t_destination_address t)) (filter (valid_on today) terms).
Proof.
  intros P H. unfold group_select in H. destruct (cisco_select _ today [] terms) as [l|x] eqn:E; [|discriminate H]. cbn [bind] in H. apply ok_inj in H.
  apply select_plain in E; [subst l; symmetry; exact H|].
  intros t I F. destruct (gt_plain _ _ (P t I F)) as (A & _ & _ & _ & _ & _ & B). auto.
Qed.
Lemma policy_reads k today hs es fl verbose target : group_policy_ok k today hs -> cisco_entries k today None hs = Ok (es, fl) ->
  cisco_target k verbose (add_repository_tags "! " true true true false) es = Ok target ->
  exists items, config_of (join lf target) = Some items /\ Forall2 (list_decides k today items) hs (acls_of items) /\
    Forall (fun a => Forall shaped (snd a)) (acls_of items) /\
    (names_apart today hs -> forall v, NoDup (map fst (groups_of (family_name v) items))) /\
    (forall v n ls, In (CGroup (family_name v) n ls) items -> exists l, policy_side today hs v l /\ l <> [] /\ n = first_name l).
Proof.
  intros (Hk & Hh & Hsame) He Ht.
  destruct (entries_of k today hs) with (fl := @None (bool * bool)) (es := es) (fl' := fl) as (F2 & _);
    [intros h terms I; destruct (Hh h terms I) as (v & name & flags & G & _); eauto|exact He|].
  assert (Hts : forall f e, In f hs -> group_entry_of k today f e -> exists v name flags verbose' ts l,
     group_header (fst f) v name flags /\ mapM (group_term k (af_of v) verbose') ts = Ok l /\
     e = mkEntry name (group_type v) (shown l) (Some (af_of v, ts)) false (ch_comment (fst f)) /\
     (forall t, In t (snd f) -> in_force today t -> group_term_ok v t /\ (k = class_nx -> t_platform t = [] /\ t_platform_exclude t = [])) /\
     ts = filter (fun t => has_addresses (af_of v) (t_source_address t) && has_addresses (af_of v) (t_destination_address t)) (filter (valid_on today) (snd f))).
  { intros (h, terms) e I (v & name & flags & vb & ts & l & G & S & L & E). cbn [fst snd] in *.
    destruct (Hh h terms I) as (v' & name' & flags' & G' & P).
    assert (v' = v) as ->.
    { destruct G as (G1 & _). destruct G' as (G2 & _). rewrite G1 in G2. pose proof (f_equal (fun x => nth 1 x "") G2) as X. cbn [nth] in X. destruct v, v'; (reflexivity || discriminate X). }
    exists v, name, flags, vb, ts, l. split; [exact G|]. split; [exact L|]. split; [exact E|]. split; [exact P|].
    apply (select_group k v vb today terms ts); [|exact S]. intros t It Ft. apply (P t It Ft). }
  assert (Hin : forall f e, In (f, e) (combine hs es) -> In f hs /\ group_entry_of k today f e).
  { clear - F2. induction F2 as [|f e hs es G F IH]; intros f0 e0 I; [destruct I|]. cbn [combine] in I. destruct I as [X|I].
    - apply pair_equal_spec in X. destruct X as (<- & <-). split; [left; reflexivity|exact G].
    - destruct (IH _ _ I). split; [right|]; assumption. }
  assert (Hes : forall e, In e es -> exists f, In f hs /\ group_entry_of k today f e).
  { clear - F2. induction F2 as [|f e hs es G F IH]; intros e0 I; [destruct I|]. destruct I as [<-|I].
    - exists f. split; [left; reflexivity|exact G].
    - destruct (IH _ I) as (f0 & A & B). exists f0. split; [right|]; assumption. }
  assert (GE : Forall (good_entry k) es).
  { apply Forall_forall. intros e Ie. destruct (Hes e Ie) as (f & If & Ge).
    destruct (Hts f e If Ge) as (v & name & flags & vb & ts & l & G & L & E & P & Ets).
    assert (Kt : forall t, In t ts -> group_term_ok v t).
    { intros t It. rewrite Ets in It. apply filter_In in It. destruct It as (It & _). apply filter_In in It. destruct It as (It & V).
      apply (P t It). apply valid_force, V. }
    exists v, ts. rewrite E. cbn [e_type e_name e_replace e_objects e_terms]. split; [reflexivity|]. split; [apply G|]. split; [reflexivity|]. split; [reflexivity|].
    split; [exact Kt|]. apply shown_shape; [split; [right; reflexivity|left; reflexivity]|]. apply mapM_forall2 in L. clear - L Kt Hk. induction L as [|t ls ts l E L IH]; [constructor|].
    constructor; [exact (group_term_shape k v vb t ls Hk (Kt t (or_introl eq_refl)) E)|]. apply IH. intros t' I. apply Kt. right. exact I. }
  destruct (target_reads k verbose es Hk GE _ tag_items target Ht tags_read) as (G & R & G1 & G2 & G3 & G4).
  set (items := G ++ tag_items ++ flat_map (entry_items k verbose) es) in *.
  assert (Ne : target <> []).
  { clear - Ht. assert (X : forall es target0, target0 <> [] -> cisco_target k verbose target0 es = Ok target -> target <> []).
    { clear Ht es. induction es as [|e es IH]; intros t0 N H; cbn [cisco_target] in H; [apply ok_inj in H; congruence|].
      destruct (entry_text k verbose e) as [l|x]; [|discriminate H]. cbn [bind] in H. apply IH in H; [exact H|].
      intros E. apply app_eq_nil in E. destruct E as (_ & E). apply app_eq_nil in E. destruct E as (E & _). congruence. }
    refine (X es _ _ Ht). discriminate. }
  exists items. split.
  { unfold config_of. rewrite split_join_lns by exact Ne. apply reads_all, R. }
  (* the sides of the entries are sides of the policy *)
  assert (Sides : forall v l, entry_side es v l -> policy_side today hs v l /\ valid_list l).
  { intros v l (e & ts & Ie & Eo & (t & It & Il)). destruct (Hes e Ie) as (f & If & Ge).
    destruct (Hts f e If Ge) as (v' & name & flags & vb & ts' & l' & Gh & L & E & P & Ets). rewrite E in Eo. cbn [e_objects] in Eo. injection Eo as Ev ->.
    assert (v' = v) as -> by (destruct v, v'; (reflexivity || discriminate Ev)).
    rewrite Ets in It. apply filter_In in It. destruct It as (It & _). apply filter_In in It. destruct It as (It & V). apply valid_force in V.
    destruct (P t It V) as (Kt & _). split.
    - destruct f as (h, terms). exists h, terms, name, flags, t. auto.
    - destruct Il as [<-|[<-|[]]]; [apply (gt_src _ _ Kt)|apply (gt_dst _ _ Kt)]. }
  assert (PortOk : forall r, entry_port es r -> 0 <= fst r /\ 0 <= snd r).
  { intros r (e & v & ts & Ie & Eo & (t & It & Il)). rewrite Forall_forall in GE. destruct (GE e Ie) as (v' & ts' & _ & _ & _ & Eo' & Kt & _).
    rewrite Eo' in Eo. injection Eo as _ ->. apply (gt_ports _ _ (Kt t It)), Il. }
  assert (Kn : forall v, knows items v (entry_side es v) (entry_port es)).
  { intros v. constructor.
    - intros n ls I. apply in_app_or in I. destruct I as [I|I].
      + destruct (G1 _ I) as [(v' & l & S & N & E)|(r & _ & E)]; [|discriminate E]. unfold group_item in E. injection E as Ef En El.
        apply family_inj in Ef. subst v'. exists l. auto.
      + apply in_app_or in I. destruct I as [I|I]; [destruct I as [E|[E|[E|[]]]]; discriminate E|]. apply entries_no_groups in I. destruct I as (I & _). destruct (I _ _ _ eq_refl).
    - intros l S N. destruct (G2 v l S N) as (ls & I). exists ls. apply in_or_app. left. exact I.
    - intros n ls I. apply in_app_or in I. destruct I as [I|I].
      + destruct (G1 _ I) as [(v' & l & S & N & E)|(r & S & E)]; [discriminate E|]. unfold port_item in E. injection E as En El.
        destruct (PortOk r S) as (A & B). exists r. auto.
      + apply in_app_or in I. destruct I as [I|I]; [destruct I as [E|[E|[E|[]]]]; discriminate E|]. apply entries_no_groups in I. destruct I as (_ & I). destruct (I _ _ eq_refl).
    - intros r S. destruct (G3 r S) as (ls & I). exists ls. apply in_or_app. left. exact I.
    - intros l S. apply (Sides v l S).
    - intros l l' x S S' N N' E C. apply (Hsame v l l' x); try assumption; [apply (Sides v l S)|apply (Sides v l' S')]. }
  assert (EA : acls_of items = map (fun e => (family_name (type_version (e_type e)), group_list_head k (type_version (e_type e)) (e_name e), list_rules k verbose e)) es).
  { unfold items. rewrite !acls_app, acls_entries, acls_groups; [reflexivity|]. intros i I. destruct (G1 i I) as [(v & l & _ & _ & E)|(r & _ & E)]; [left|right]; eauto. }
  assert (EG : forall v, groups_of (family_name v) items = groups_of (family_name v) G).
  { intros v. unfold items. rewrite !groups_app.
    assert (X : groups_of (family_name v) (flat_map (entry_items k verbose) es) = []) by (clear; induction es as [|e es IH]; [reflexivity|exact IH]).
    rewrite X. cbn. apply app_nil_r. }
  rewrite EA. split; [|split; [|split]].
  2:{ apply Forall_forall. intros a Ia. apply in_map_iff in Ia. destruct Ia as (e & <- & Ie). cbn [snd]. rewrite Forall_forall in GE.
      destruct (GE e Ie) as (v & ts & Et & _ & _ & _ & _ & Sh). unfold list_rules. rewrite lns_app, words_app.
      assert (IR : remark_lines (list_intro k verbose e)) by (apply intro_remarks; [exact Hk|rewrite Et; destruct v; cbn; tauto]).
      rewrite (remarks_plain _ IR). apply remarks_shaped in IR.
      assert (W : forall ls, Forall (fun l => (shifted l \/ l = "") /\ shaped (split_ws l)) ls -> Forall shaped (words_of ls)).
      { intros ls F. apply Forall_forall. intros ws I. unfold words_of in I. apply filter_In in I. destruct I as (I & _). apply in_map_iff in I. destruct I as (x & <- & I).
        rewrite Forall_forall in F. apply (F x I). }
      apply Forall_app. split; apply W; assumption. }
  2:{ intros Ap v. rewrite EG. apply G4. clear - F2 Hts Ap.
      assert (X : forall f e v l, In f hs -> group_entry_of k today f e -> entry_side [e] v l -> address_of_version l (Some v) <> [] -> policy_side today [f] v l).
      { intros f e v l If Ge (e0 & ts & [<-|[]] & Eo & (t & It & Il)) Nl.
        destruct (Hts f e If Ge) as (v' & name & flags & vb & ts' & l' & Gh & L & E & P & Ets). rewrite E in Eo. cbn [e_objects] in Eo. injection Eo as Ev ->.
        assert (v' = v) as -> by (destruct v, v'; (reflexivity || discriminate Ev)).
        rewrite Ets in It. apply filter_In in It. destruct It as (It & _). apply filter_In in It. destruct It as (It & V). apply valid_force in V.
        destruct f as (h, terms). exists h, terms, name, flags, t. split; [left; reflexivity|]. auto. }
      clear Hts. induction F2 as [|f e hs es Gx F IH]; [constructor|]. inversion Ap as [|? ? A1 A2]; subst. constructor.
      - apply Forall_forall. intros e' Ie v l l' S S' N N'.
        assert (Y : exists f', In f' hs /\ group_entry_of k today f' e').
        { clear - F Ie. induction F as [|f e hs es G F IH]; [destruct Ie|]. destruct Ie as [<-|Ie]; [exists f; split; [left; reflexivity|exact G]|].
          destruct (IH Ie) as (f' & A & B). exists f'. split; [right; exact A|exact B]. }
        destruct Y as (f' & If' & Ge'). rewrite Forall_forall in A1. apply (A1 f' If' v l l'); [| |apply (version_some v), N|apply (version_some v), N'].
        + apply (X f e v l); [left; reflexivity|exact Gx|exact S|exact N].
        + apply (X f' e' v l'); [right; exact If'|exact Ge'|exact S'|exact N'].
      - apply IH; [exact A2|]. intros f' e' v l I. apply X. right. exact I. }
  2:{ intros v n ls I. destruct (kn_from _ _ _ _ (Kn v) n ls I) as (l & S & N & E & _). exists l. split; [apply (Sides v l S)|]. split; [apply (version_some v), N|exact E]. }
  assert (Goal1 : forall f e, In f hs -> In e es -> group_entry_of k today f e ->
    list_decides k today items f (family_name (type_version (e_type e)), group_list_head k (type_version (e_type e)) (e_name e), list_rules k verbose e)).
  { intros f e If Ie Ge. destruct (Hts f e If Ge) as (v & name & flags & vb & ts & l & Gh & L & E & P & Ets).
    exists v, name, flags. rewrite E in Ie |- *. cbn [e_type e_name fst snd]. rewrite type_version_of. split; [exact Gh|]. split; [reflexivity|]. split; [reflexivity|].
    intros p Q outcome. unfold rules_decide, list_rules. cbn [e_terms].
    set (e' := mkEntry name (group_type v) (shown l) (Some (af_of v, ts)) false (ch_comment (fst f))) in *.
    rewrite lns_app, words_app, shown_words.
    assert (IR : remark_lines (list_intro k verbose e')) by (apply intro_remarks; [exact Hk|destruct v; cbn; tauto]).
    rewrite (remarks_plain _ IR). rewrite first_says_app.
    assert (Quiet : forall ws a, In ws (words_of (list_intro k verbose e')) -> ~ rule_matches items v a ws p) by (intros ws a I; exact (remarks_quiet items v _ p a ws IR I)).
    transitivity (first_says (fun ws a => rule_matches items v a ws p) (flat_map (fun ls => words_of (lns ls)) l) outcome).
    { split.
      - intros [X|(X & _)]; [|exact X]. destruct X as (b & x & c & Ex & Mx & _). exfalso. apply (Quiet x outcome); [|exact Mx]. rewrite Ex. apply in_or_app. right. left. reflexivity.
      - intros X. right. split; [exact X|]. intros y a I M. destruct (Quiet y a I M). }
    rewrite flat_map_concat_map.
    assert (St : forall t, In t ts -> In t (snd f) /\ in_force today t /\ has_addresses (af_of v) (t_source_address t) = true /\ has_addresses (af_of v) (t_destination_address t) = true).
    { intros t It. rewrite Ets in It. apply filter_In in It. destruct It as (It & Ha). apply filter_In in It. destruct It as (It & V). apply valid_force in V.
      apply andb_true_iff in Ha. destruct Ha as (A & B). auto. }
    rewrite (first_says_blocks (fun ws a => rule_matches items v a ws p) (says_now p) ts).
    - rewrite Ets. rewrite first_says_filter.
      + unfold terms_decide. transitivity (first_says (fun t a => (in_force today t /\ term_matches t p) /\ exists w r, t_action t = w :: r /\ a = verdict w) (filter (valid_on today) (snd f)) outcome).
        * clear - P. assert (X : forall t, In t (filter (valid_on today) (snd f)) -> in_force today t) by (intros t I; apply filter_In in I; apply valid_force, I).
          induction (filter (valid_on today) (snd f)) as [|t r IH]; [split; intros Y; apply first_says_nil in Y; destruct Y|].
          rewrite !first_says_cons, IH by (intros t' I; apply X; right; exact I). unfold says_now.
          assert (Z : in_force today t) by (apply X; left; reflexivity).
          assert (W : forall a, (term_matches t p /\ exists w r, t_action t = w :: r /\ a = verdict w) <->
             ((in_force today t /\ term_matches t p) /\ exists w r, t_action t = w :: r /\ a = verdict w)) by (intros a; tauto).
          rewrite (W outcome). apply or_iff_compat_l, and_iff_compat_l. split; intros Y a; specialize (Y a); rewrite (W a) in *; exact Y.
        * apply first_says_filter. intros t It V a ((Ft & _) & _). apply valid_force in Ft. congruence.
      + intros t It Ha a (M & _). apply filter_In in It. destruct It as (It & V). apply valid_force in V. destruct (P t It V) as (Kt & _).
        destruct (gt_plain _ _ Kt) as (_ & _ & _ & _ & X1 & X2 & X3). destruct Q as (Q1 & Q2 & Q3 & Q4 & Q5).
        rewrite (term_matches_cisco (mkCisco (k_platform k) (af_of v) true false false false) t p (gt_only _ _ Kt) Q5) in M; [|rewrite X3; exact Logic.I].
        destruct M as (_ & _ & _ & M1 & _ & M2 & _). rewrite X1 in M1. rewrite X2 in M2.
        assert (Xs : p_src p = (v, snd (p_src p))) by (rewrite <- Q1; destruct (p_src p); reflexivity).
        assert (Xd : p_dst p = (v, snd (p_dst p))) by (rewrite <- Q3; destruct (p_dst p); reflexivity). rewrite Xs in M1. rewrite Xd in M2.
        apply andb_false_iff in Ha. destruct Ha as [Ha|Ha]; [exact (no_addresses _ _ _ Ha M1)|exact (no_addresses _ _ _ Ha M2)].
    - apply mapM_forall2 in L.
      assert (Sd : forall t, In t ts -> entry_side es v (t_source_address t) /\ entry_side es v (t_destination_address t) /\ forall r, In r (t_source_port t ++ t_destination_port t) -> entry_port es r).
      { intros t It. split; [|split].
        - exists e', ts. split; [exact Ie|]. split; [reflexivity|]. exists t. split; [exact It|left; reflexivity].
        - exists e', ts. split; [exact Ie|]. split; [reflexivity|]. exists t. split; [exact It|right; left; reflexivity].
        - intros r I. exists e', v, ts. split; [exact Ie|]. split; [reflexivity|]. exists t. auto. }
      clear - L Sd St P Kn Hk Q. induction L as [|t ls ts l E L IH]; [constructor|]. cbn [map]. constructor; [|apply IH; intros t' I; [apply St|apply Sd]; right; exact I].
      destruct (St t (or_introl eq_refl)) as (It & Ft & Ha & Hb). destruct (Sd t (or_introl eq_refl)) as (S1 & S2 & S3). destruct (P t It Ft) as (Kt & Hx).
      destruct (group_term_exact k v items _ _ vb t p ls Hk (Kn v) Kt Hx S1 S2 S3 Ha Hb Q E) as (_ & X). split; [exact X|].
      intros a a' (_ & w1 & r1 & E1 & ->) (_ & w2 & r2 & E2 & ->). congruence. }
  clearbody items. revert Goal1. clear - F2. intros Goal1. induction F2 as [|f e hs es Gx F IH]; [constructor|]. cbn [map]. constructor.
  - apply Goal1; [left; reflexivity|left; reflexivity|exact Gx].
  - apply IH. intros f' e' I J. apply Goal1; right; assumption.
Qed.

(** Without the removal of duplicates *)
Lemma group_lists_decide k today hs text : group_policy_ok k today hs ->
  (forall h terms, In (h, terms) hs -> ~ In "remove_duplicate_network_objectgroups" (ch_options h)) -> cisco_text k today hs = Ok text ->
  exists items, config_of text = Some items /\ Forall2 (list_decides k today items) hs (acls_of items).
Proof.
  intros Hp Nd H. unfold cisco_text in H. destruct (cisco_entries k today None hs) as [(es, fl)|x] eqn:E; [|discriminate H]. cbn [bind] in H.
  destruct (entries_of k today hs) with (fl := @None (bool * bool)) (es := es) (fl' := fl) as (_ & L);
    [intros h terms I; destruct Hp as (_ & P & _); destruct (P h terms I) as (v & name & flags & G & _); eauto|exact E|].
  destruct hs as [|f hs]; [cbn [cisco_entries] in E; apply ok_inj in E; apply pair_equal_spec in E; destruct E as (_ & <-); discriminate H|].
  destruct L as (verbose & h & terms & v & name & flags & I & G & _ & ->); [discriminate|].
  assert (str_in "remove_duplicate_network_objectgroups" flags = false) as Ed.
  { apply not_true_is_false. intros X. apply str_in_spec in X. apply (Nd h terms I). destruct G as (-> & _). right. right. exact X. }
  rewrite Ed in H. destruct (cisco_target k verbose _ es) as [target|x] eqn:Et; [|discriminate H]. cbn [bind] in H. apply ok_inj in H. subst text.
  destruct (policy_reads k today _ es _ verbose target Hp E Et) as (items & A & B & _). eauto.
Qed.
