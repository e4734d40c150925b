(** Removal of duplicate groups in generated configurations: the lists still decide as the
    policy does. *)
From Coq Require Import Lia ZifyBool ZifyNat.
From Verif Require Import SpecCiscoRules SpecSum IPFacts BaseFacts PyStrFacts TextProofs WrapProofs GenProofs CiscoProofs CiscoProofs2 CiscoTerm CiscoAcl IptTerm CiscoDup CiscoGroupRead CiscoGroupTerm CiscoGroupAcl.
Local Open Scope string_scope.
Local Open Scope list_scope.
Local Open Scope Z_scope.

(** ** Rules that agree *)
Lemma group_says_members items v n x : NoDup (map fst (groups_of (family_name v) items)) ->
  (group_says items v n x <-> exists ls line, members items (family_name v) n = Some ls /\ In line ls /\ member_says v line x).
Proof.
  intros N. unfold group_says. split; intros (ls & line & A & B & C); exists ls, line; (split; [|split; assumption]).
  - apply groups_in in A. apply assoc_unique; assumption.
  - apply groups_in. apply assoc_in. exact A.
Qed.
Lemma ports_rest items n ls : In (CPorts n ls) items <-> In (CPorts n ls) (rest_of items).
Proof. unfold rest_of. rewrite filter_In. tauto. Qed.
Lemma port_group_same items items' n x : rest_of items' = rest_of items -> (port_group_says items n x <-> port_group_says items' n x).
Proof.
  intros E. unfold port_group_says. split; intros (ls & line & A & B); exists ls, line; (split; [|exact B]); apply ports_rest; apply ports_rest in A; congruence.
Qed.
Definition same_option (L L' : string -> option (list string)) (s s' : option string) : Prop :=
  match s, s' with None, None => True | Some n, Some n' => L n = L' n' | _, _ => False end.
Definition is_ref (s : option string) : bool := match s with Some n => String.eqb n "net-group" | None => false end.
Lemma same_name L L' s r ws' : same_words L L' false (name_words s ++ r) ws' ->
  exists s' r', ws' = name_words s' ++ r' /\ same_option L L' s s' /\ same_words L L' (is_ref s) r r'.
Proof.
  destruct s as [n|]; intros H; cbn [name_words app] in H.
  - destruct ws' as [|w1 [|w2 r']]; [destruct H|destruct H as (_ & [])|]. destruct H as (-> & (E & _) & H). exists (Some w2), r'. split; [reflexivity|]. split; [exact E|exact H].
  - destruct ws' as [|w1 r']; [destruct H|]. destruct H as (-> & H). exists None, r'. split; [reflexivity|]. split; [exact Logic.I|exact H].
Qed.
Lemma key_not_ref r : 0 <= fst r -> String.eqb (port_key r) "net-group" = false.
Proof.
  intros H. apply String.eqb_neq. intros E. pose proof (f_equal (before_char "-") E) as X. unfold port_key in X.
  rewrite (before_char_app "-" (dec (fst r)) _ (dec_no_dash _ H)) in X. cbn in X. rewrite str_app_nil in X.
  pose proof (dec_digits _ H) as D. rewrite X in D. discriminate D.
Qed.
Lemma same_port L L' o r ws' : oport_good o -> same_words L L' false (port_words o ++ r) ws' ->
  exists r', ws' = port_words o ++ r' /\ same_words L L' false r r'.
Proof.
  intros G. destruct o as [q|]; intros H; cbn [port_words app] in *; [|eauto].
  destruct ws' as [|w1 [|w2 r']]; [destruct H|destruct H as (_ & [])|]. destruct H as (-> & -> & H). destruct G as (G & _). rewrite (key_not_ref q G) in H.
  exists r'. split; [reflexivity|exact H].
Qed.
Lemma rule_src items v a x y n r p : rule_matches items v a (x :: y :: "net-group" :: n :: r) p -> group_says items v n (snd (p_src p)).
Proof.
  intros M. unfold rule_matches in M. destruct M as (_ & _ & M).
  change (read_side items v ("net-group" :: n :: r)) with (Some (group_says items v n, r)) in M. cbv iota beta in M.
  destruct (read_side_port items r) as (sp, r1). destruct (read_side items v r1) as [(d, r2)|]; [|destruct M]. destruct (read_side_port items r2) as (dp, r3).
  destruct (read_number r3) as (ty, r4). destruct (read_number r4) as (co, r5). apply M.
Qed.
Lemma same_rule items items' v a ws ws' p : NoDup (map fst (groups_of (family_name v) items)) -> NoDup (map fst (groups_of (family_name v) items')) ->
  members items (family_name v) "net-group" = None -> rest_of items' = rest_of items ->
  shaped ws -> same_words (members items (family_name v)) (members items' (family_name v)) false ws ws' ->
  (rule_matches items v a ws p <-> rule_matches items' v a ws' p).
Proof.
  intros N N' G R S W. set (L := members items (family_name v)) in *. set (L' := members items' (family_name v)) in *.
  assert (GS : forall n n' x, L n = L' n' -> (group_says items v n x <-> group_says items' v n' x)).
  { intros n n' x E. rewrite !group_says_members by assumption. fold L L'. rewrite E. reflexivity. }
  assert (GN : forall s s' x, same_option L L' s s' -> (name_pred items v s x <-> name_pred items' v s' x)).
  { intros [n|] [n'|] x E; cbn [same_option name_pred] in *; [apply GS, E|destruct E|destruct E|reflexivity]. }
  assert (GP : forall o x, port_pred items o x <-> port_pred items' o x) by (intros [q|] x; [apply port_group_same, R|reflexivity]).
  destruct S as [->|[(r & ->)|(act & proto & s & sp & d & dp & Na & Np & Gs & Gd & ->)]].
  - destruct ws'; [split; intros []|destruct W].
  - destruct ws' as [|w r']; [destruct W|]. destruct W as (-> & _). split; intros M; exfalso; eapply remark_no_match, M.
  - destruct ws' as [|w1 [|w2 r']]; [destruct W|destruct W as (_ & [])|]. destruct W as (-> & W). rewrite (eqb_neq' _ _ Na) in W. destruct W as (-> & W).
    rewrite (eqb_neq' _ _ Np) in W. apply same_name in W. destruct W as (s' & r1 & -> & Es & W). destruct (is_ref s) eqn:Rs.
    { destruct s as [n|]; [|discriminate Rs]. apply String.eqb_eq in Rs. subst n. destruct s' as [n'|]; [|destruct Es]. cbn [same_option] in Es. split; intros M; exfalso.
      - apply rule_src, group_says_members in M; [|exact N]. destruct M as (ls & line & X & _). fold L in X. congruence.
      - apply rule_src, group_says_members in M; [|exact N']. destruct M as (ls & line & X & _). fold L' in X. congruence. }
    apply same_port in W; [|exact Gs]. destruct W as (r2 & -> & W). apply same_name in W. destruct W as (d' & r3 & -> & Ed & W).
    destruct (is_ref d) eqn:Rd.
    { destruct d as [n|]; [|discriminate Rd]. apply String.eqb_eq in Rd. subst n. destruct d' as [n'|]; [|destruct Ed]. cbn [same_option] in Ed.
      assert (F : forall x, ~ group_says items v "net-group" x) by (intros x M; apply group_says_members in M; [|exact N]; destruct M as (ls & line & X & _); fold L in X; congruence).
      assert (F' : forall x, ~ group_says items' v n' x) by (intros x M; apply group_says_members in M; [|exact N']; destruct M as (ls & line & X & _); fold L' in X; congruence).
      rewrite name_rule_words. split; intros M; exfalso.
      - cbn [name_pred] in M. apply (F (snd (p_dst p))). apply M.
      - unfold rule_matches in M. rewrite read_side_words, read_port_words, read_side_words in M. destruct M as (_ & _ & M). cbv iota beta in M.
        destruct (read_side_port items' r3) as (dq, r4). destruct (read_number r4) as (ty, r5). destruct (read_number r5) as (co, r6). apply (F' (snd (p_dst p))). apply M. }
    rewrite <- (app_nil_r (port_words dp)) in W. apply same_port in W; [|exact Gd]. destruct W as (r4 & -> & W). destruct r4; [|destruct W]. rewrite app_nil_r.
    rewrite !name_rule_words, !GP, (GN s s' _ Es), (GN d d' _ Ed). reflexivity.
Qed.
Lemma decides_same k today items items' f a a' : NoDup (map fst (groups_of (fst (fst a)) items)) -> NoDup (map fst (groups_of (fst (fst a)) items')) ->
  members items (fst (fst a)) "net-group" = None -> rest_of items' = rest_of items ->
  Forall shaped (snd a) -> same_acl items items' a a' -> list_decides k today items f a -> list_decides k today items' f a'.
Proof.
  intros N N' G R S (E & W) (v & name & flags & Gh & Ef & Eh & D). exists v, name, flags. rewrite E. split; [exact Gh|]. split; [exact Ef|]. split; [exact Eh|].
  intros p T outcome. rewrite <- (D p T outcome). unfold rules_decide. rewrite Ef in *. clear - N N' G R S W. induction W as [|ws ws' rs rs' H W IH].
  - split; intros X; apply first_says_nil in X; destruct X.
  - inversion S as [|? ? S1 S2]; subst. rewrite !first_says_cons, (IH S2), (same_rule items items' v outcome ws ws' p N N' G R S1 H).
    apply or_iff_compat_l, and_iff_compat_l. split; intros X b Y; apply (X b); apply (same_rule items items' v b ws ws' p N N' G R S1 H); exact Y.
Qed.

(** ** Line ends in the text *)
Lemma plain_app a b : plain_lines (a ++ b)%string <-> plain_lines a /\ plain_lines b.
Proof. unfold plain_lines. rewrite forall_char_app. apply andb_true_iff. Qed.
Lemma plain_join l : Forall plain_lines l -> plain_lines (join lf l).
Proof.
  induction l as [|x l IH]; intros F; [reflexivity|]. inversion F; subst. destruct l as [|y l]; [assumption|].
  cbn [join]. apply plain_app. split; [assumption|]. apply plain_app. split; [reflexivity|]. apply IH. assumption.
Qed.
Lemma plain_of (f : ascii -> bool) s : (forall c, f c = true -> negb (line_end c) || Ascii.eqb c newline = true) -> forall_char f s = true -> plain_lines s.
Proof. intros H F. unfold plain_lines. eapply forall_char_impl; [exact H|exact F]. Qed.
Lemma clean_plain s : clean s -> plain_lines s.
Proof. apply plain_of. intros c H. rewrite H. reflexivity. Qed.
Lemma word_plain w : one_word w -> plain_lines w.
Proof. intros H. apply clean_plain, good_clean, H. Qed.
Lemma dec_plain_lines n : 0 <= n -> plain_lines (dec n).
Proof. intros H. apply clean_plain, no_ws_clean, dec_no_ws, H. Qed.
Lemma addr_plain v a : plain_lines (addr_text v a).
Proof. apply clean_plain, no_ws_clean, addr_text_no_ws. Qed.
Lemma sub_plain a s b : plain_lines (a ++ s ++ b)%string -> plain_lines s.
Proof. rewrite !plain_app. tauto. Qed.
Lemma rstrip_plain s : plain_lines s -> plain_lines (rstrip s).
Proof. intros H. destruct (JuniperText.rstrip_blank s) as (b & E & _). rewrite E, plain_app in H. apply H. Qed.
Lemma has_char_all f s : (forall c, f c = false -> has_char c s = false) -> forall_char f s = true.
Proof.
  induction s as [|c s IH]; intros H; [reflexivity|]. cbn [forall_char]. apply andb_true_iff. split.
  - destruct (f c) eqn:E; [reflexivity|]. specialize (H c E). cbn [has_char] in H. rewrite Ascii.eqb_refl in H. discriminate H.
  - apply IH. intros d D. specialize (H d D). cbn [has_char] in H. apply orb_false_iff in H. apply H.
Qed.
Lemma plain_no c s : plain_lines s -> line_end c = true -> c <> newline -> has_char c s = false.
Proof.
  intros P L N. induction s as [|d s IH]; [reflexivity|]. unfold plain_lines in P. cbn [forall_char has_char] in *. apply andb_true_iff in P. destruct P as (P1 & P2).
  rewrite (IH P2), orb_false_r. destruct (Ascii.eqb d c) eqn:E; [|reflexivity]. apply Ascii.eqb_eq in E. subst d. rewrite L in P1. cbn in P1. apply Ascii.eqb_eq in P1. congruence.
Qed.
Lemma wrapped_plain l n x : Forall plain_lines l -> In x (wrap_words l n lf) -> plain_lines x.
Proof.
  intros F I. rewrite Forall_forall in F. unfold plain_lines. apply has_char_all. intros c E. apply orb_false_iff in E. destruct E as (E1 & E2). apply negb_false_iff in E1.
  assert (N : c <> newline) by (intros ->; discriminate E2). apply (wrap_words_no l n c x N); [|exact I]. intros s Is. apply plain_no; auto.
Qed.
Lemma pieces_plain s x : plain_lines s -> In x (split_char newline s) -> plain_lines x.
Proof. intros P I. apply clean_plain. pose proof (plain_clean s P) as F. rewrite Forall_forall in F. exact (F x I). Qed.

(** the texts of groups *)
Lemma network_plain v seen l : side_ok v l -> Forall plain_lines (fst (network_group (af_of v) seen l)).
Proof.
  intros (V & W & F). unfold network_group. rewrite version_af. destruct (address_of_version l (Some v)) as [|n r] eqn:E; [constructor|].
  destruct (str_in (nptoken n) seen); [constructor|]. cbn [fst].
  assert (Nl : l <> []) by (intros ->; discriminate E). destruct (W Nl) as (W1 & _).
  assert (Et : nptoken n = first_name l) by (apply (F n r), E).
  constructor; [|apply Forall_app; split; [|constructor; [reflexivity|constructor]]].
  - apply (plain_app "object-group network ipv"). split; [reflexivity|]. apply plain_app. split; [destruct v; reflexivity|]. apply (plain_app " "). split; [reflexivity|]. rewrite Et. apply word_plain, W1.
  - apply Forall_forall. intros x I. apply in_map_iff in I. destruct I as (m & <- & I). rewrite <- E in I.
    destruct (version_valid l v V) as (V' & _). unfold valid_list in V'. rewrite Forall_forall in V'. pose proof (V' m I) as (Hl & _).
    apply (plain_app " "). split; [reflexivity|]. apply plain_app. split; [apply addr_plain|]. apply (plain_app "/"). split; [reflexivity|]. apply dec_plain_lines. lia.
Qed.
Lemma key_plain r : 0 <= fst r -> 0 <= snd r -> plain_lines (port_key r).
Proof. intros A B. apply word_plain, port_key_word; assumption. Qed.
Lemma ports_plain ports : (forall r, In r ports -> 0 <= fst r /\ 0 <= snd r) -> forall seen, Forall plain_lines (fst (port_groups seen ports)).
Proof.
  induction ports as [|r ports IH]; intros H seen; [constructor|]. cbn [port_groups]. destruct (str_in (port_key r) seen); [apply IH; intros q I; apply H; right; exact I|].
  specialize (IH (fun q I => H q (or_intror I)) (port_key r :: seen)). destruct (port_groups (port_key r :: seen) ports) as (more, seen'). cbn [fst] in *.
  destruct (H r (or_introl eq_refl)) as (A & B). constructor; [|constructor; [|constructor; [reflexivity|exact IH]]].
  - apply (plain_app "object-group port "). split; [reflexivity|apply key_plain; assumption].
  - destruct (negb _).
    + apply (plain_app " range "). split; [reflexivity|]. apply plain_app. split; [apply dec_plain_lines, A|]. apply (plain_app " "). split; [reflexivity|apply dec_plain_lines, B].
    + apply (plain_app " eq "). split; [reflexivity|apply dec_plain_lines, A].
Qed.
Lemma definitions_plain v ts : (forall t, In t ts -> group_term_ok v t) -> forall nets ports, Forall plain_lines (group_definitions (af_of v) nets ports ts).
Proof.
  induction ts as [|t ts IH]; intros H nets ports; [constructor|]. cbn [group_definitions]. destruct (H t (or_introl eq_refl)) as [_ _ _ S D _ P _].
  pose proof (network_plain v nets _ S) as A. destruct (network_group (af_of v) nets (t_source_address t)) as (g1, nets1).
  pose proof (network_plain v nets1 _ D) as B. destruct (network_group (af_of v) nets1 (t_destination_address t)) as (g2, nets2).
  pose proof (ports_plain _ P ports) as C. destruct (port_groups ports (t_source_port t ++ t_destination_port t)) as (g3, ports'). cbn [fst] in *.
  repeat (apply Forall_app; split; [assumption|]). apply IH. intros t' I. apply H. right. exact I.
Qed.
(** the texts of terms *)
Definition plain_term (t : term) : Prop := plain_lines (t_name t) /\ Forall plain_lines (t_comment t).
Lemma side_plain v l : side_ok v l -> plain_lines (side_text (side_name l)).
Proof.
  intros (_ & W & _). destruct l as [|n l]; [reflexivity|]. destruct (W ltac:(discriminate)) as (W1 & _). unfold side_text. cbn [side_name first_name] in *.
  destruct (negb _ && negb _); [apply (plain_app "net-group "); split; [reflexivity|]|]; apply word_plain, W1.
Qed.
Lemma oport_plain o : oport_good o -> plain_lines (port_text o).
Proof. destruct o as [r|]; intros G; [|reflexivity]. destruct G. apply (plain_app " port-group "). split; [reflexivity|apply key_plain; assumption]. Qed.
Lemma term_plain k v verbose t lines : In k [class_ios; class_xr; class_nx] -> group_term_ok v t -> plain_term t -> group_term k (af_of v) verbose t = Ok lines ->
  Forall plain_lines lines.
Proof.
  intros Hk G (Pn & Pc) H.
  unfold group_term in H. rewrite (term_protocols_named (t_protocol t)) in H by (intros q I; apply (gt_protocol _ _ G q I)). cbn [bind] in H.
  destruct (elsewhere (k_group_platform k) t) eqn:EP; [apply ok_inj in H; subst lines; constructor|].
  fold (term_remarks verbose t) in H. assert (Vb : t_verbatim t = []) by apply (gt_only _ _ G). rewrite Vb in H. cbn [some] in H.
  destruct (action_verdict t (gt_action _ _ G)) as (a & r & Ea & At & Wa & Da). rewrite At in H. cbn [bind] in H. apply ok_inj in H. subst lines.
  apply (Forall_app _ (lf :: term_remarks verbose t)). split.
  - constructor; [reflexivity|]. unfold term_remarks. destruct verbose; [|constructor]. constructor; [apply (plain_app " remark "); split; [reflexivity|exact Pn]|].
    assert (F : Forall plain_lines (map (append " remark ") (wrap_words (t_comment t) 70 lf))).
    { apply Forall_forall. intros x I. apply in_map_iff in I. destruct I as (y & <- & I). apply (plain_app " remark "). split; [reflexivity|]. eapply wrapped_plain; eassumption. }
    destruct (wrap_words (t_comment t) 70 lf) as [|c l]; [constructor|]. destruct (is_empty c); [constructor|exact F].
  - apply Forall_forall. intros x I.
    apply in_flat_map in I. destruct I as (sp & I1 & I). apply in_flat_map in I. destruct I as (dp & I2 & I). apply in_map_iff in I. destruct I as (e & <- & I3).
    assert (GP : forall ports, (forall q, In q ports -> 0 <= fst q /\ 0 <= snd q) -> forall o, In o (group_ports ports) -> oport_good o).
    { intros ports P o I. unfold group_ports in I. destruct ports as [|q0 ports]; [destruct I as [<-|[]]; exact Logic.I|]. cbn [some] in I.
      apply in_map_iff in I. destruct I as (q & <- & I). exact (P q I). }
    assert (Gs : oport_good sp) by (apply (GP (t_source_port t)); [|exact I1]; intros q I; apply (gt_ports _ _ G), in_or_app; left; exact I).
    assert (Gd : oport_good dp) by (apply (GP (t_destination_port t)); [|exact I2]; intros q I; apply (gt_ports _ _ G), in_or_app; right; exact I).
    destruct (group_protocols_shape k v (t_protocol t) (mkPacket (V4, 0) (V4, 0) "" 0 0 "" 0 (fun _ => False) (fun _ => False) (fun _ => False) (fun _ => False)
      (fun _ => False) "" "" 0 0 0 64 "" "" "" "" "" "" "" "" "") Hk (gt_protocol _ _ G)) as (PW & _).
    unfold group_termlet. apply rstrip_plain.
    apply (plain_app " "). split; [reflexivity|]. apply plain_app. split; [apply word_plain, Wa|]. apply (plain_app " "). split; [reflexivity|].
    apply plain_app. split; [apply word_plain, PW, I3|]. apply (plain_app " "). split; [reflexivity|]. apply plain_app. split; [apply (side_plain v), G|].
    apply plain_app. split; [apply oport_plain, Gs|]. apply (plain_app " "). split; [reflexivity|]. apply plain_app. split; [apply (side_plain v), G|apply oport_plain, Gd].
Qed.
Lemma shown_plain l : Forall (Forall plain_lines) l -> Forall plain_lines (shown l).
Proof.
  intros F. apply Forall_forall. intros x I. unfold shown in I. apply filter_In in I. destruct I as (I & _). apply in_map_iff in I. destruct I as (ls & <- & I).
  apply plain_join. rewrite Forall_forall in F. exact (F ls I).
Qed.
(** the text of a policy *)
Definition plain_entry (k : cisco_class) (e : centry) : Prop :=
  In (e_type e) ["object-group"; "object-group-inet6"] /\ plain_lines (e_name e) /\ Forall plain_lines (e_comment e) /\ Forall plain_lines (e_terms e) /\
  exists v ts, e_objects e = Some (af_of v, ts) /\ forall t, In t ts -> group_term_ok v t.
Lemma entry_plain k verbose e l : In k [class_ios; class_xr; class_nx] -> plain_entry k e -> entry_text k verbose e = Ok l -> Forall plain_lines l.
Proof.
  intros Hk (T & N & C & R & _) H. unfold entry_text in H. destruct (filter_lines k (e_name e) (e_type e) (e_replace e)) as [cmd|x] eqn:E; [|discriminate H].
  cbn [bind] in H. apply ok_inj in H. subst l. apply Forall_app. split; [|apply Forall_app; split; [|exact R]].
  - assert (X : forall p, plain_lines p -> plain_lines (p ++ e_name e)%string) by (intros p P; apply plain_app; auto).
    unfold filter_lines in E.
    destruct Hk as [<-|[<-|[<-|[]]]]; destruct T as [T|[T|[]]]; rewrite <- T in E; cbn -[append] in E; try (destruct (e_replace e)); apply ok_inj in E; subst cmd;
      repeat (constructor || (apply plain_app; split; [reflexivity|])); exact N.
  - destruct verbose; [|constructor]. apply Forall_app. split.
    + unfold tag_lines. destruct Hk as [<-|[<-|[<-|[]]]]; destruct T as [T|[T|[]]]; rewrite <- T; cbn; repeat constructor.
    + unfold header_remarks. apply Forall_forall. intros x I. apply in_map_iff in I. destruct I as (y & <- & I). apply in_flat_map in I. destruct I as (z & I & J).
      assert (P : plain_lines y) by (exact (pieces_plain _ _ (wrapped_plain _ _ _ C I) J)).
      destruct (_ && _); [|apply (plain_app " remark "); split; [reflexivity|exact P]].
      apply (plain_app "access-list "). split; [reflexivity|]. apply plain_app. split; [exact N|]. apply (plain_app " remark "). split; [reflexivity|exact P].
Qed.
Lemma target_plain k verbose es : In k [class_ios; class_xr; class_nx] -> Forall (plain_entry k) es -> forall t0 target,
  Forall plain_lines t0 -> cisco_target k verbose t0 es = Ok target -> Forall plain_lines target.
Proof.
  intros Hk. induction es as [|e es IH]; intros F t0 target P H; cbn [cisco_target] in H; [apply ok_inj in H; subst; exact P|].
  inversion F as [|? ? Pe Fe]; subst. destruct (entry_text k verbose e) as [l|x] eqn:E; [|discriminate H]. cbn [bind] in H.
  eapply IH; [exact Fe| |exact H]. apply Forall_app. split; [|apply Forall_app; split; [exact P|apply Forall_app; split]].
  - destruct Pe as (_ & _ & _ & _ & (v & ts & -> & K)). destruct ts as [|t ts]; [constructor|]. constructor; [|constructor]. apply plain_join.
    constructor; [reflexivity|]. apply definitions_plain, K.
  - exact (entry_plain k verbose e l Hk Pe E).
  - destruct (e_replace e); repeat constructor.
Qed.

(** ** Heads of lists *)
Lemma head_listed lines line : In line lines -> starts_with "ip access-list " line = true -> forall m items, read_config m lines = Some items ->
  exists rs, In (CAcl "ipv4" line rs) items.
Proof.
  intros I S. assert (A : acl_head line = Some "ipv4") by (unfold acl_head; rewrite S; reflexivity). destruct (acl_excl _ _ A) as (X1 & X2 & X3).
  assert (Fin : forall lines f h rs items, read_config (MAcl f h rs) lines = Some items -> exists rs', In (CAcl f h rs') items).
  { clear. induction lines as [|line lines IH]; intros f h rs items H; cbn [read_config] in H; [injection H as <-; eexists; left; reflexivity|].
    destruct (starts_with "exit" line).
    - destruct (read_config MOut lines) as [r|]; [|discriminate H]. cbn [option_map] in H. injection H as <-. eexists. left. reflexivity.
    - destruct (starts_with "object-group" line); [discriminate H|]. destruct (acl_head line) as [f'|].
      + destruct (read_config (MAcl f' line []) lines) as [r|]; [|discriminate H]. cbn [option_map] in H. injection H as <-. eexists. left. reflexivity.
      + destruct (split_ws line); eapply IH; exact H. }
  induction lines as [|x lines IH]; [destruct I|]. destruct I as [->|I].
  - intros m items H. cbn [read_config] in H. destruct m as [|f n ls|n ls|f h rs]; rewrite ?X1, ?X2, ?X3, ?A in H; cbn [orb] in H.
    + eapply Fin, H.
    + discriminate H.
    + discriminate H.
    + destruct (read_config (MAcl "ipv4" line []) lines) as [r|] eqn:E; [|discriminate H]. cbn [option_map] in H. injection H as <-. destruct (Fin _ _ _ _ _ E) as (rs' & J). exists rs'. right. exact J.
  - intros m items H. assert (Step : forall m' i0, option_map (cons i0) (read_config m' lines) = Some items -> exists rs, In (CAcl "ipv4" line rs) items).
    { intros m' i0 E. destruct (read_config m' lines) as [r|] eqn:Er; [|discriminate E]. cbn [option_map] in E. injection E as <-. destruct (IH I _ _ Er) as (rs & J). exists rs. right. exact J. }
    cbn [read_config] in H. destruct m as [|f n ls|n ls|f h rs].
    + destruct (is_empty x); [eapply IH; eassumption|]. destruct (starts_with "object-group" x); [destruct (group_head x) as [m'|]; [eapply IH; eassumption|discriminate H]|].
      destruct (acl_head x); [eapply IH; eassumption|]. eapply Step, H.
    + destruct (starts_with "exit" x); [eapply Step, H|]. destruct (_ || _); [discriminate H|]. destruct (acl_head x); [discriminate H|eapply IH; eassumption].
    + destruct (starts_with "exit" x); [eapply Step, H|]. destruct (_ || _); [discriminate H|]. destruct (acl_head x); [discriminate H|eapply IH; eassumption].
    + destruct (starts_with "exit" x); [eapply Step, H|]. destruct (starts_with "object-group" x); [discriminate H|]. destruct (acl_head x); [eapply Step, H|].
      destruct (split_ws x); eapply IH; eassumption.
Qed.

(** ** The policy *)
Lemma policy_lists_decide k today hs text : group_policy_ok k today hs -> In k [class_ios; class_xr] -> names_apart today hs ->
  (forall v l, policy_side today hs v l -> l <> [] -> first_name l <> "net-group") -> plain_texts today hs ->
  cisco_text k today hs = Ok text ->
  exists items, config_of text = Some items /\ Forall2 (list_decides k today items) hs (acls_of items) /\
    (forall before h terms, hs = before ++ [(h, terms)] -> In "remove_duplicate_network_objectgroups" (ch_options h) -> no_duplicates items).
Proof.
  intros Hp Hx Ap Nn Pt H. unfold cisco_text in H. destruct (cisco_entries k today None hs) as [(es, fl)|x] eqn:E; [|discriminate H]. cbn [bind] in H.
  destruct (entries_of k today hs) with (fl := @None (bool * bool)) (es := es) (fl' := fl) as (F2 & L);
    [intros h terms I; destruct Hp as (_ & P & _); destruct (P h terms I) as (v & name & flags & G & _); eauto|exact E|].
  destruct hs as [|f hs']; [cbn [cisco_entries] in E; apply ok_inj in E; apply pair_equal_spec in E; destruct E as (_ & <-); discriminate H|]. set (hs := f :: hs') in *.
  destruct L as (verbose & h & terms & v & name & flags & I & G & La & ->); [discriminate|]. clearbody hs. clear f hs'.
  destruct (cisco_target k verbose _ es) as [target|x] eqn:Et; [|discriminate H]. cbn [bind] in H. apply ok_inj in H. subst text.
  destruct (policy_reads k today _ es _ verbose target Hp E Et) as (items & A & B & C & D & M).
  assert (Lh : forall before h' terms', hs = before ++ [(h', terms')] -> h' = h).
  { intros before h' terms' X. rewrite X in La. rewrite last_last in La. apply pair_equal_spec in La. apply La. }
  destruct (str_in "remove_duplicate_network_objectgroups" flags) eqn:Ed.
  2:{ exists items. split; [exact A|]. split; [exact B|]. intros before h' terms' X O. apply Lh in X. subst h'. exfalso. destruct G as (Eo & _ & _ & Nf & _). rewrite Eo in O.
      destruct O as [O|[O|O]]; [|destruct v; discriminate O|apply str_in_spec in O; congruence]. apply Nf. rewrite O. right. right. left. reflexivity. }
  assert (Hk : In k [class_ios; class_xr; class_nx]) by (cbn [In] in Hx |- *; tauto).
  assert (Pl : plain_lines (join lf target)).
  { apply plain_join. eapply (target_plain k verbose es Hk); [| |exact Et]; [|repeat constructor].
    destruct Hp as (_ & Hp & _). clear - F2 Hp Pt Hk.
    assert (X : forall f e, In f hs -> group_entry_of k today f e -> plain_entry k e).
    { intros (h, terms) e If (v & name & flags & vb & ts & l & G & S & Ml & ->). cbn [fst snd] in *. destruct (Hp h terms If) as (v' & name' & flags' & G' & P).
      assert (v' = v) as ->.
      { destruct G as (G1 & _). destruct G' as (G2 & _). rewrite G1 in G2. pose proof (f_equal (fun x => nth 1 x "") G2) as X. cbn [nth] in X. destruct v, v'; (reflexivity || discriminate X). }
      destruct (Pt h terms If) as (T1 & T2 & T3).
      assert (Ts : forall t, In t ts -> group_term_ok v t /\ plain_term t).
      { intros t It. apply (select_group k v vb today terms ts) in S; [|intros t' It' Ft'; apply (P t' It' Ft')]. rewrite S in It. apply filter_In in It. destruct It as (It & _).
        apply filter_In in It. destruct It as (It & V). apply valid_force in V. split; [apply (P t It V)|apply (T3 t It V)]. }
      split; [destruct v; cbn; tauto|]. split.
      { rewrite Forall_forall in T1. apply T1. destruct G as (-> & _). left. reflexivity. }
      split; [exact T2|]. split.
      - cbn [e_terms]. apply shown_plain. apply mapM_forall2 in Ml. clear - Ml Ts Hk. induction Ml as [|t ls ts l E M IH]; [constructor|].
        constructor; [|apply IH; intros t' I; apply Ts; right; exact I]. destruct (Ts t (or_introl eq_refl)) as (A & B). exact (term_plain k v vb t ls Hk A B E).
      - exists v, ts. split; [reflexivity|]. intros t It. apply Ts, It. }
    clear Hp Pt. induction F2 as [|f e hs es Gx F IH]; [constructor|]. constructor; [exact (X f e (or_introl eq_refl) Gx)|]. apply IH. intros f' e' I. apply X. right. exact I. }
  assert (Kh : known_heads (join lf target)).
  { intros line Il S. destruct (head_listed _ line Il S MOut items A) as (rs & J).
    assert (J' : In ("ipv4", line, rs) (acls_of items)) by (unfold acls_of; apply in_flat_map; eexists; split; [exact J|left; reflexivity]).
    clear - B J' S Hx. induction B as [|f a hs l Da B IH]; [destruct J'|]. destruct J' as [->|J']; [|apply IH, J'].
    destruct Da as (v & name & flags & _ & Ef & Eh & _). cbn [fst snd] in *. destruct v; [|discriminate Ef]. destruct Hx as [<-|[<-|[]]].
    - rewrite Eh. cbn [group_list_head]. destruct name; reflexivity.
    - exfalso. rewrite Eh in S. discriminate S. }
  assert (On : names_once items).
  { intros fam If. assert (exists v, fam = family_name v) as (v' & ->) by (destruct If as [<-|[<-|[]]]; [exists V4|exists V6]; reflexivity).
    split; [apply (D Ap)|]. destruct (members items (family_name v') "net-group") as [ls|] eqn:Em; [|reflexivity]. exfalso. unfold members in Em. apply assoc_in, groups_in in Em.
    destruct (M _ _ _ Em) as (l & S & N & X). apply (Nn v' l S N). symmetry. exact X. }
  destruct (removal_same _ items Pl Kh A On) as (items' & R1 & (R2 & R3 & R4) & R5 & R6). exists items'. split; [exact R1|]. split; [|intros; exact R6].
  clear - B C R2 R3 On R5. revert B C R2. generalize (acls_of items), (acls_of items'). intros l l' B. revert l'.
  induction B as [|f a hs l Da B IH]; intros l' C R; inversion R as [|? a' ? r' Sa R']; subst; [constructor|]. inversion C as [|? ? C1 C2]; subst. constructor; [|apply IH; assumption].
  assert (If : In (fst (fst a)) ["ipv4"; "ipv6"]) by (destruct Da as (v & name & flags & _ & -> & _); destruct v; cbn; tauto).
  destruct (On _ If) as (O1 & O2). destruct (R5 _ If) as (O3 & _). apply (decides_same k today items items' f a a'); assumption.
Qed.
