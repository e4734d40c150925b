(** Proofs about the address checker. *)
From Coq Require Import Lia ZifyBool ZifyNat.
From Verif Require Import SpecCheck BaseFacts PyStrFacts IPFacts PortNameProofs PolicyProofs.
Local Open Scope string_scope.
Local Open Scope list_scope.
Local Open Scope Z_scope.

(** ** What a checkable term matches *)
Definition visible (t : term) (p : packet) : Prop :=
  (t_source_address t = [] \/ covered (t_source_address t) (p_src p)) /\
  (t_destination_address t = [] \/ covered (t_destination_address t) (p_dst p)) /\
  ports_match (t_source_port t) (p_sport p) /\ ports_match (t_destination_port t) (p_dport p) /\
  protocols_match t p.

Lemma not_covered_nil x : ~ covered [] x.
Proof. intros (n & [] & _). Qed.

Lemma checkable_visible t p : checkable t -> term_matches t p -> visible t p.
Proof.
  intros C (A & P & Q & _). destruct C as [_ (E1 & E2 & E3) _ _ _ _ _ _ _ _].
  destruct A as (_ & [A1 _] & [A2 _]). destruct Q as (_ & Q1 & Q2). repeat (split; [assumption|]). assumption.
Qed.
Lemma checkable_matches t p : checkable t -> ~ open_condition t -> (term_matches t p <-> visible t p).
Proof.
  intros C O. split; [apply checkable_visible, C|]. intros (V1 & V2 & V3 & V4 & V5).
  destruct C as [_ (E1 & E2 & E3) (E4 & E5) E6 (E7 & E8 & E9 & E10 & E11 & E12) (E13 & E14 & E15) (E16 & E17)
    (E18 & E19) (E20 & E21 & E22 & E23) (E24 & E25 & E26 & E27 & E28 & E29 & E30)].
  assert (X : t_option t = []).
  { destruct (t_option t) as [|o l] eqn:E; [reflexivity|]. exfalso. apply O. unfold open_condition. rewrite E.
    destruct (E6 o (or_introl eq_refl)) as [[<-|[<-|[<-|[]]]] Ht]; [left|right; left|right; right; left]; cbn; auto. }
  assert (F : forall o n, (forall s, s <> "" -> o <> Some s) -> text_range o n).
  { intros [s|] n H; cbn; [|exact I]. left. destruct (string_dec s ""); [assumption|]. destruct (H s n0 eq_refl). }
  assert (N : forall A (l : list A) P, l = [] -> any_or l P) by (intros; left; assumption).
  assert (M : forall A (l : list A) P, l = [] -> none_of l P) by (intros A l P -> ? []).
  assert (K : forall x, ~ covered [] x) by apply not_covered_nil.
  unfold term_matches, addresses_match, either_matches, side_matches, all_ports_match, prefixes_match, options_match,
    numbers_match, icmp_match, place_matches, link_matches.
  rewrite E1, E2, E4, E5, E3, X, E16, E17, E28, E29, E30.
  split; [split; [left; auto|]; split; split; auto|].
  split; [assumption|].
  split; [split; [left; left; reflexivity|]; split; assumption|].
  split; [repeat (split; auto)|].
  split; [split; [auto|]; split; [intros ? []|]; auto|].
  split. { split; [apply F; intros s Hs E; apply O; right; right; right; left; eauto|]. split; [exact I|].
           split; [apply F; intros s Hs E; apply O; right; right; right; right; eauto|exact I]. }
  split; [auto|]. split; [auto 6|]. repeat (split; auto).
Qed.

(** ** The test of one term *)
Lemma possible_spec t : possible_match t = [] <-> ~ open_condition t.
Proof.
  unfold possible_match, open_condition. rewrite <- !given_true, <- !str_in_spec.
  destruct (str_in "first-fragment" (t_option t)), (given (t_fragment_offset t)), (given (t_packet_length t)),
    (str_in "established" (t_option t)), (str_in "tcp-established" (t_option t)), (str_in "tcp" (t_protocol t));
    cbn; split; try discriminate; try reflexivity; intuition congruence.
Qed.

Lemma addr_inside_any l : addr_inside None l = true. Proof. reflexivity. Qed.
Lemma addr_inside_single n x l : valid n -> valid_list l -> (forall y, covers n y <-> y = x) ->
  (addr_inside (Some n) l = true <-> l = [] \/ covered l x).
Proof.
  intros Vn Vl Hn. unfold addr_inside. destruct (some l) eqn:E.
  - apply some_true in E. rewrite existsb_exists. split.
    + intros (m & Hm & S). right. exists m. split; [assumption|]. apply (subnet_of_spec n m Vn) in S.
      * apply S, Hn. reflexivity.
      * exact (proj1 (Forall_forall _ _) Vl _ Hm).
    + intros [F|(m & Hm & Hc)]; [congruence|]. exists m. split; [assumption|].
      apply subnet_of_spec; [assumption|exact (proj1 (Forall_forall _ _) Vl _ Hm)|]. intros y Hy. apply Hn in Hy. subst. assumption.
  - apply some_false in E. tauto.
Qed.
Lemma port_inside_spec n l : port_inside (Some n) l = true <-> in_ports l n.
Proof.
  unfold port_inside. rewrite some_true. unfold in_ports, in_range. split.
  - intros H. destruct (filter (fun x => (fst x <=? n) && (n <=? snd x)) l) as [|r k] eqn:E; [congruence|]. assert (I : In r (filter (fun x => (fst x <=? n) && (n <=? snd x)) l)) by (rewrite E; left; reflexivity).
    apply filter_In in I. exists r. split; [tauto|lia].
  - intros (r & Hr & H) E. assert (I : In r (filter (fun x => (fst x <=? n) && (n <=? snd x)) l)) by (apply filter_In; split; [assumption|lia]).
    rewrite E in I. destruct I.
Qed.
Lemma port_test q l : negb (match q with None => false | Some _ => true end && some l && negb (port_inside q l)) = true <->
  match q with None => True | Some n => ports_match l n end.
Proof.
  destruct q as [n|]; [|cbn; tauto]. unfold ports_match. rewrite <- some_false, <- port_inside_spec.
  change (@some (Z * Z) l) with (@some prange l). destruct (some l), (port_inside (Some n) l); cbn [negb andb]; intuition congruence.
Qed.

Lemma considered_spec q t : term_considered q t = true <->
  addr_inside (q_src q) (t_source_address t) = true /\ addr_inside (q_dst q) (t_destination_address t) = true /\
  match q_sport q with None => True | Some n => ports_match (t_source_port t) n end /\
  match q_dport q with None => True | Some n => ports_match (t_destination_port t) n end /\
  (q_proto q <> "any" -> t_protocol t = [] \/ In (q_proto q) (t_protocol t)) /\
  ~ In (q_proto q) (t_protocol_except t) /\ t_action t <> [].
Proof.
  unfold term_considered. rewrite !andb_true_iff, !port_test.
  assert (A : negb (negb (q_proto q =? "any")%string && some (t_protocol t) && negb (str_in (q_proto q) (t_protocol t))) = true <->
    (q_proto q <> "any" -> t_protocol t = [] \/ In (q_proto q) (t_protocol t))).
  { rewrite <- some_false, <- str_in_spec, <- String.eqb_neq.
    destruct (q_proto q =? "any")%string, (some (t_protocol t)), (str_in (q_proto q) (t_protocol t)); cbn; intuition congruence. }
  assert (B : negb (some (t_protocol_except t) && str_in (q_proto q) (t_protocol_except t)) = true <->
    ~ In (q_proto q) (t_protocol_except t)).
  { rewrite <- str_in_spec. destruct (t_protocol_except t) as [|x l]; [cbn; intuition congruence|].
    cbn [some andb]. rewrite negb_true_iff. symmetry. apply not_true_iff_false. }
  rewrite A, B, some_true. split; [intros ((((((?&?)&?)&?)&?)&?)&?); auto 10|intros (?&?&?&?&?&?&?); auto 10].
Qed.

Lemma considered_packet q t p : checkable t -> asks_for q p ->
  (term_considered q t = true <-> t_action t <> [] /\ visible t p).
Proof.
  intros C ((n & En & Vn & Hn) & (m & Em & Vm & Hm) & E3 & E4 & E5 & E6). rewrite considered_spec, En, Em, E3, E4.
  destruct (ck_valid _ C) as (_ & _ & V1 & _ & V2 & _).
  rewrite (addr_inside_single n _ _ Vn V1 Hn), (addr_inside_single m _ _ Vm V2 Hm). rewrite E5.
  unfold visible, protocols_match, any_or, none_of.
  assert (X : (t_protocol t = [] \/ (exists a, In a (t_protocol t) /\ p_proto p = a)) <->
              (p_proto p <> "any" -> t_protocol t = [] \/ In (p_proto p) (t_protocol t))).
  { split.
    - intros [H|(a & Ha & <-)] _; auto.
    - intros H. destruct (H E6) as [H'|H']; [auto|]. right. eauto. }
  assert (Y : (forall a, In a (t_protocol_except t) -> p_proto p <> a) <-> ~ In (p_proto p) (t_protocol_except t)).
  { split; [intros H I; exact (H _ I eq_refl)|]. intros H a Ha E. subst. auto. }
  rewrite X, Y. split; [intros (?&?&?&?&?&?&?); auto 10|intros (? & ? & ? & ? & ? & ? & ?); auto 10].
Qed.

(** ** The loop over the terms *)
Definition match_of (f : string) (t : term) : matched := mkMatch f (t_name t) (possible_match t) (hd "" (t_action t)).
Definition passes (t : term) : bool := some (possible_match t) || str_in "next" (t_action t).

(** The matches are the considered terms up to the first one that does not pass on; that
    one, if any, is the exact match. *)
Lemma check_terms_spec q f : forall ts ms ex, check_terms q f ts = (ms, ex) ->
  (ex = [] /\ ms = map (match_of f) (filter (term_considered q) ts) /\
   (forall t, In t ts -> term_considered q t = true -> passes t = true)) \/
  (exists u t v, ts = u ++ t :: v /\ term_considered q t = true /\ passes t = false /\
     (forall e, In e u -> term_considered q e = true -> passes e = true) /\
     ex = [match_of f t] /\ ms = map (match_of f) (filter (term_considered q) (u ++ [t]))).
Proof.
  induction ts as [|t ts IH]; intros ms ex H; cbn [check_terms] in H.
  - injection H as <- <-. left. split; [reflexivity|]. split; [reflexivity|]. intros ? [].
  - destruct (term_considered q t) eqn:E.
    + fold (match_of f t) in H. fold (passes t) in H. destruct (passes t) eqn:P.
      * destruct (check_terms q f ts) as [ms' ex'] eqn:R. cbn [fst snd] in H. injection H as <- <-.
        destruct (IH _ _ eq_refl) as [(-> & -> & Hp)|(u & x & v & -> & Hx & Px & Hu & -> & ->)].
        -- left. split; [reflexivity|]. cbn [filter]. rewrite E. split; [reflexivity|].
           intros y [<-|Hy] Cy; [assumption|auto].
        -- right. exists (t :: u), x, v. split; [reflexivity|]. split; [assumption|]. split; [assumption|].
           split; [intros y [<-|Hy] Cy; [assumption|auto]|]. split; [reflexivity|]. cbn [app filter]. rewrite E. reflexivity.
      * injection H as <- <-. right. exists [], t, ts. split; [reflexivity|]. split; [assumption|]. split; [assumption|].
        split; [intros ? []|]. unfold passes in P. apply orb_false_iff in P. destruct P as [P _]. apply some_false in P.
        cbn [app filter]. rewrite E. cbn [map]. unfold match_of. rewrite P. split; reflexivity.
    + destruct (IH _ _ H) as [(-> & -> & Hp)|(u & x & v & -> & Hx & Px & Hu & -> & ->)].
      * left. split; [reflexivity|]. cbn [filter]. rewrite E. split; [reflexivity|].
        intros y [<-|Hy] Cy; [congruence|auto].
      * right. exists (t :: u), x, v. split; [reflexivity|]. split; [assumption|]. split; [assumption|].
        split; [intros y [<-|Hy] Cy; [congruence|auto]|]. split; [reflexivity|]. cbn [app filter]. rewrite E. reflexivity.
Qed.

Lemma passes_spec t : passes t = true <-> open_condition t \/ In "next" (t_action t).
Proof.
  unfold passes. rewrite orb_true_iff, str_in_spec, some_true.
  assert (possible_match t <> [] <-> open_condition t); [|tauto].
  rewrite possible_spec. split; [|tauto]. intros H.
  destruct (possible_match t) eqn:E.
  - exfalso. apply H, possible_spec, E.
  - unfold open_condition. unfold possible_match in E.
    destruct (str_in "first-fragment" (t_option t)) eqn:E1; [left; apply str_in_spec, E1|].
    destruct (str_in "established" (t_option t)) eqn:E2; [right; left; apply str_in_spec, E2|].
    destruct (str_in "tcp-established" (t_option t)) eqn:E3.
    + destruct (str_in "tcp" (t_protocol t)) eqn:E4; [right; right; left; split; apply str_in_spec; assumption|].
      destruct (given (t_fragment_offset t)) eqn:E5; [right; right; right; left; apply given_true, E5|].
      destruct (given (t_packet_length t)) eqn:E6; [right; right; right; right; apply given_true, E6|]. discriminate E.
    + destruct (given (t_fragment_offset t)) eqn:E5; [right; right; right; left; apply given_true, E5|].
      destruct (given (t_packet_length t)) eqn:E6; [right; right; right; right; apply given_true, E6|]. discriminate E.
Qed.

Lemma exact_match q f p ts ms ex : Forall checkable ts -> asks_for q p -> check_terms q f ts = (ms, ex) ->
  (forall m, In m ex -> exists u t v, ts = u ++ t :: v /\ m = mkMatch f (t_name t) [] (hd "" (t_action t)) /\
     term_matches t p /\ t_action t <> [] /\ ~ In "next" (t_action t) /\
     forall e, In e u -> term_matches e p -> t_action e = [] \/ In "next" (t_action e) \/ open_condition e) /\
  (ex = [] -> forall t, In t ts -> term_matches t p -> t_action t = [] \/ In "next" (t_action t) \/ open_condition t).
Proof.
  intros F A H. apply check_terms_spec in H. rewrite Forall_forall in F.
  assert (G : forall e, In e ts -> (term_considered q e = true -> passes e = true) -> term_matches e p ->
     t_action e = [] \/ In "next" (t_action e) \/ open_condition e).
  { intros e He Hp Hm. destruct (t_action e) eqn:Ea; [auto|]. rewrite <- Ea. right.
    assert (P : passes e = true); [|apply passes_spec in P; tauto].
    apply Hp. apply (considered_packet q e p (F e He) A). split; [congruence|apply checkable_visible; auto]. }
  destruct H as [(-> & -> & Hp)|(u & t & v & -> & Hc & Pt & Hu & -> & ->)].
  - split; [intros ? []|]. intros _ t Ht. auto.
  - split; [|discriminate]. intros m [<-|[]]. exists u, t, v. split; [reflexivity|].
    assert (It : In t (u ++ t :: v)) by (apply in_or_app; right; left; reflexivity).
    assert (O : ~ open_condition t /\ ~ In "next" (t_action t)).
    { assert (~ (open_condition t \/ In "next" (t_action t))) by (rewrite <- passes_spec; congruence). tauto. }
    apply (considered_packet q t p (F t It) A) in Hc. destruct Hc as [Ha Hv].
    split; [unfold match_of; rewrite (proj2 (possible_spec t) (proj1 O)); reflexivity|].
    split; [apply checkable_matches; [auto|tauto|assumption]|]. split; [assumption|]. split; [tauto|].
    intros e He. apply G; [apply in_or_app; auto|]. auto.
Qed.

Lemma split_compare {A} (t x : A) : forall u v u' v', u ++ t :: v = u' ++ x :: v' -> In t (u' ++ [x]) \/ In x u.
Proof.
  induction u as [|a u IH]; intros v [|b u'] v' H; cbn in H; injection H as H1 H2; subst.
  - left. left. reflexivity.
  - left. left. reflexivity.
  - right. left. reflexivity.
  - destruct (IH _ _ _ H2) as [I|I]; [left; right; exact I|right; right; exact I].
Qed.
Lemma action_matches q f p ts ms ex a : Forall checkable ts -> asks_for q p -> check_terms q f ts = (ms, ex) ->
  forall m, In m (action_match a ms) <-> exists u t v, ts = u ++ t :: v /\ m = mkMatch f (t_name t) [] (hd "" (t_action t)) /\
    term_matches t p /\ ~ open_condition t /\ hd "" (t_action t) <> "" /\ (a = "any" \/ substring_of a (hd "" (t_action t)) = true) /\
    forall e, In e u -> term_matches e p -> t_action e = [] \/ In "next" (t_action e) \/ open_condition e.
Proof.
  intros F A H m. pose proof (check_terms_spec q f ts ms ex H) as S. rewrite Forall_forall in F.
  assert (Sure : forall t, In t ts -> ~ open_condition t -> t_action t <> [] -> (term_considered q t = true <-> term_matches t p)).
  { intros t It O Ha. rewrite (considered_packet q t p (F t It) A), (checkable_matches t p (F t It) O). tauto. }
  assert (Nonempty : forall t, hd "" (t_action t) <> "" -> t_action t <> []) by (intros t N E; rewrite E in N; exact (N eq_refl)).
  assert (G : forall e, In e ts -> (term_considered q e = true -> passes e = true) -> term_matches e p -> t_action e = [] \/ In "next" (t_action e) \/ open_condition e).
  { intros e He Hp Hm. destruct (t_action e) eqn:Ea; [auto|]. rewrite <- Ea. right. assert (P : passes e = true); [|apply passes_spec in P; tauto].
    apply Hp. apply (considered_packet q e p (F e He) A). split; [congruence|apply checkable_visible; auto]. }
  assert (Up : exists u0 v0, ts = u0 ++ v0 /\ ms = map (match_of f) (filter (term_considered q) u0) /\
    (forall w t w', u0 = w ++ t :: w' -> forall e, In e w -> term_considered q e = true -> passes e = true) /\
    (v0 = [] \/ exists w t, u0 = w ++ [t] /\ term_considered q t = true /\ passes t = false)).
  { destruct S as [(_ & -> & Hp)|(u & t & v & -> & Ct & Pt & Hu & _ & ->)].
    - exists ts, []. split; [symmetry; apply app_nil_r|]. split; [reflexivity|]. split; [|left; reflexivity]. intros w t w' -> e Ie. apply Hp, in_or_app. left. exact Ie.
    - exists (u ++ [t]), v. split; [rewrite <- app_assoc; reflexivity|]. split; [reflexivity|]. split; [|right; eauto].
      intros w x w' E e Ie. apply Hu. destruct w' as [|y w'] using rev_ind.
      + apply app_inj_tail in E. destruct E as (-> & _). exact Ie.
      + clear IHw'. rewrite app_comm_cons, app_assoc in E. apply app_inj_tail in E. destruct E as (-> & _). apply in_or_app. left. exact Ie. }
  clear S. destruct Up as (u0 & v0 & -> & -> & Early & Stop). unfold action_match. rewrite filter_In, in_map_iff. split.
  - intros ((t & <- & I) & T). unfold match_of in T. cbn [m_action m_possibles] in T. rewrite !andb_true_iff, orb_true_iff, String.eqb_eq in T. destruct T as ((T1 & T2) & T3).
    assert (Po : possible_match t = []) by (destruct (possible_match t); [reflexivity|discriminate T2]). pose proof (proj1 (possible_spec t) Po) as O.
    apply filter_In in I. destruct I as (I & C). apply in_split in I. destruct I as (w & w' & E). exists w, t, (w' ++ v0). split; [rewrite E, <- app_assoc; reflexivity|].
    assert (Na : hd "" (t_action t) <> "") by (intros X; rewrite X in T1; discriminate T1).
    split; [unfold match_of; rewrite Po; reflexivity|]. split; [apply Sure; [rewrite E; apply in_or_app; left; apply in_or_app; right; left; reflexivity|exact O|apply Nonempty, Na|exact C]|]. split; [exact O|]. split; [exact Na|]. split; [exact T3|].
    intros e Ie. apply G; [rewrite E; apply in_or_app; left; apply in_or_app; left; exact Ie|exact (Early w t w' E e Ie)].
  - intros (u & t & v & E & -> & Mt & O & Na & Ha & Hu). pose proof (proj2 (possible_spec t) O) as Po. split.
    + exists t. unfold match_of. rewrite Po. split; [reflexivity|]. apply filter_In.
      assert (It : In t (u0 ++ v0)) by (rewrite E; apply in_or_app; right; left; reflexivity). split; [|apply Sure; auto].
      destruct Stop as [->|(w & x & -> & Cx & Px)]; [rewrite app_nil_r in It; exact It|].
      assert (E' : u ++ t :: v = w ++ x :: v0) by (rewrite <- E, <- app_assoc; reflexivity).
      destruct (split_compare t x _ _ _ _ E') as [I|I]; [exact I|]. exfalso.
      assert (Ox : ~ (open_condition x \/ In "next" (t_action x))) by (rewrite <- passes_spec; congruence).
      assert (Ix : In x ((w ++ [x]) ++ v0)) by (apply in_or_app; left; apply in_or_app; right; left; reflexivity).
      pose proof (proj1 (considered_packet q x p (F x Ix) A) Cx) as (Ax & Vx).
      destruct (Hu x I) as [X|[X|X]]; [|exact (Ax X)|tauto..]. apply Sure; [exact Ix|tauto|exact Ax|exact Cx].
    + cbn [m_action m_possibles]. destruct (hd "" (t_action t)) eqn:Eh; [destruct (Na eq_refl)|]. cbn [nonempty]. apply andb_true_iff. split; [reflexivity|]. apply orb_true_iff. rewrite String.eqb_eq. exact Ha.
Qed.


Lemma deciding_reported q f p ts ms ex t : Forall checkable ts -> asks_for q p -> check_terms q f ts = (ms, ex) ->
  decides ts p t -> t_action t <> [] -> In (mkMatch f (t_name t) (possible_match t) (hd "" (t_action t))) ms.
Proof.
  intros F A H (u & v & -> & Hm & Hn & He) Ha. rewrite Forall_forall in F.
  assert (It : In t (u ++ t :: v)) by (apply in_or_app; right; left; reflexivity).
  assert (Ct : term_considered q t = true).
  { apply (considered_packet q t p (F t It) A). split; [assumption|apply checkable_visible; auto]. }
  destruct (check_terms_spec _ _ _ _ _ H) as [(_ & -> & _)|(u' & x & v' & E & Cx & Px & Hu & _ & ->)].
  - apply (in_map (match_of f)). apply filter_In. auto.
  - apply (in_map (match_of f)). apply filter_In. split; [|assumption].
    destruct (split_compare _ _ _ _ _ _ E) as [I|I]; [assumption|]. exfalso.
    assert (Fx : checkable x) by (apply F, in_or_app; auto).
    assert (O : ~ (open_condition x \/ In "next" (t_action x))) by (rewrite <- passes_spec; congruence).
    apply (considered_packet q x p Fx A) in Cx. apply O. right. apply He; [assumption|].
    apply checkable_matches; tauto.
Qed.

(** With no open conditions the exact match is the deciding term. *)
Lemma exact_iff_decides q f p ts ms ex : Forall checkable ts -> asks_for q p ->
  (forall t, In t ts -> ~ open_condition t /\ t_action t <> []) -> check_terms q f ts = (ms, ex) ->
  (forall m, In m ex <-> exists t, decides ts p t /\ m = mkMatch f (t_name t) [] (hd "" (t_action t))).
Proof.
  intros F A N H m. destruct (exact_match _ _ _ _ _ _ F A H) as [X Y]. split.
  - intros Hm. destruct (X m Hm) as (u & t & v & -> & -> & Mt & _ & Nx & He). exists t. split; [|reflexivity].
    exists u, v. split; [reflexivity|]. split; [assumption|]. split; [assumption|]. intros e Ie Me.
    destruct (N e) as [N1 N2]; [apply in_or_app; auto|]. destruct (He e Ie Me) as [?|[?|?]]; tauto.
  - intros (t & (u & v & E & Mt & Nx & He) & ->). destruct ex as [|m' ex'].
    + exfalso. assert (It : In t ts) by (rewrite E; apply in_or_app; right; left; reflexivity).
      destruct (N t It). destruct (Y eq_refl t It Mt) as [?|[?|?]]; tauto.
    + destruct (X m' (or_introl eq_refl)) as (u' & x & v' & E' & Em & Mx & _ & Nx' & He').
      assert (Ix : In x ts) by (rewrite E'; apply in_or_app; right; left; reflexivity).
      assert (It : In t ts) by (rewrite E; apply in_or_app; right; left; reflexivity).
      assert (t = x); [|subst; left; reflexivity].
      assert (C1 : In x u -> False) by (intros I; apply Nx', He; assumption).
      assert (C2 : In t u' -> False).
      { intros I. destruct (N t It). destruct (He' t I Mt) as [?|[?|?]]; tauto. }
      rewrite E in E'. destruct (split_compare _ _ _ _ _ _ E') as [I|I]; [|tauto].
      apply in_app_or in I. destruct I as [I|[I|[]]]; [tauto|congruence].
Qed.

(** ** Wildcards *)
Fixpoint longest (l : list string) : nat := match l with [] => 0%nat | s :: l' => Nat.max (String.length s) (longest l') end.
Fixpoint xs (n : nat) : string := match n with O => "x" | S k => String "x" (xs k) end.
Lemma xs_length n : String.length (xs n) = S n. Proof. induction n; cbn; [reflexivity|]. f_equal. assumption. Qed.
Lemma longest_in s l : In s l -> (String.length s <= longest l)%nat.
Proof. induction l as [|a l IH]; intros []; cbn; [subst|specialize (IH H)]; lia. Qed.
Lemma fresh_proto (l : list string) : exists s, ~ In s l.
Proof. exists (xs (longest l)). intros I. apply longest_in in I. rewrite xs_length in I. lia. Qed.

Lemma inside_some l o : valid_list l -> single_or_any o -> addr_inside o l = true ->
  exists x, (forall n, o = Some n -> covers n x) /\ (l = [] \/ covered l x).
Proof.
  intros V S H. destruct o as [n|].
  - destruct S as (Vn & x & Hx). exists x. split; [intros m [= <-]; apply Hx; reflexivity|].
    exact (proj1 (addr_inside_single n x l Vn V Hx) H).
  - destruct l as [|m l].
    + exists (V4, 0). split; [discriminate|]. auto.
    + exists (nver m, naddr m). split; [discriminate|]. right. exists m. split; [left; reflexivity|].
      split; [reflexivity|]. cbn. inversion V; subst. destruct H2 as ((? & L) & _). pose proof (size_pos m L). lia.
Qed.
Lemma inside_some_back l o x : valid_list l -> single_or_any o -> (forall n, o = Some n -> covers n x) ->
  l = [] \/ covered l x -> addr_inside o l = true.
Proof.
  intros V S H C. destruct o as [n|]; [|reflexivity]. destruct S as (Vn & y & Hy).
  assert (x = y) by (apply Hy, H; reflexivity). subst. apply (addr_inside_single n y l Vn V Hy). assumption.
Qed.
Lemma port_some (l : list prange) (o : option Z) : (forall r, In r l -> fst r <= snd r) ->
  (match o with None => True | Some n => ports_match l n end) ->
  exists n, (forall s, o = Some s -> n = s) /\ ports_match l n.
Proof.
  intros W H. destruct o as [n|].
  - exists n. split; [intros s [= <-]; reflexivity|assumption].
  - destruct l as [|r l].
    + exists 0. split; [discriminate|left; reflexivity].
    + exists (fst r). split; [discriminate|]. right. exists r. split; [left; reflexivity|].
      specialize (W r (or_introl eq_refl)). unfold in_range. lia.
Qed.

Lemma wildcard q t : checkable t -> ~ open_condition t -> t_action t <> [] ->
  single_or_any (q_src q) -> single_or_any (q_dst q) ->
  (forall r, In r (t_source_port t) \/ In r (t_destination_port t) -> fst r <= snd r) ->
  (t_protocol t = [] \/ t_protocol_except t = []) -> ~ In "any" (t_protocol_except t) ->
  (term_considered q t = true <-> exists p, among q p /\ term_matches t p).
Proof.
  intros C O Ha S1 S2 W P N. rewrite considered_spec. destruct (ck_valid _ C) as (_ & _ & V1 & _ & V2 & _). split.
  - intros (A1 & A2 & A3 & A4 & A5 & A6 & _).
    destruct (inside_some _ _ V1 S1 A1) as (x & X1 & X2). destruct (inside_some _ _ V2 S2 A2) as (y & Y1 & Y2).
    destruct (port_some _ _ (fun r H => W r (or_introl H)) A3) as (n & N1 & N2).
    destruct (port_some _ _ (fun r H => W r (or_intror H)) A4) as (m & M1 & M2).
    assert (Q : exists s, (q_proto q <> "any" -> s = q_proto q) /\ any_or (t_protocol t) (eq s) /\ none_of (t_protocol_except t) (eq s)).
    { destruct (string_dec (q_proto q) "any") as [E|E].
      - destruct (t_protocol t) as [|a l] eqn:Et.
        + destruct (fresh_proto (t_protocol_except t)) as (s & Hs). exists s. split; [congruence|]. split; [left; reflexivity|].
          intros b Hb <-. auto.
        + exists a. split; [congruence|]. split; [right; exists a; split; [left|]; reflexivity|].
          destruct P as [P|P]; [discriminate|]. rewrite P. intros ? [].
      - exists (q_proto q). split; [auto|]. split.
        + destruct (A5 E) as [H|H]; [left; assumption|right; eauto].
        + intros b Hb <-. auto. }
    destruct Q as (s & Q1 & Q2 & Q3).
    exists (mkPacket x y s n m "" 0 (fun _ => False) (fun _ => False) (fun _ => False) (fun _ => False) (fun _ => False)
             "" "" 0 0 0 0 "" "" "" "" "" "" "" "" "").
    split.
    + unfold among. cbn. auto.
    + apply checkable_matches; [assumption|assumption|]. unfold visible, protocols_match. cbn. auto 8.
  - intros (p & (B1 & B2 & B3 & B4 & B5) & M). apply (checkable_visible _ _ C) in M.
    destruct M as (M1 & M2 & M3 & M4 & M5 & M6).
    split; [apply (inside_some_back _ _ (p_src p)); assumption|]. split; [apply (inside_some_back _ _ (p_dst p)); assumption|].
    split; [destruct (q_sport q); [rewrite (B3 z eq_refl) in M3; assumption|exact I]|].
    split; [destruct (q_dport q); [rewrite (B4 z eq_refl) in M4; assumption|exact I]|].
    split. { intros E. rewrite <- (B5 E). destruct M5 as [M5|(a & I & <-)]; auto. }
    split; [|assumption]. intros I. destruct (string_dec (q_proto q) "any") as [E|E]; [rewrite E in I; auto|].
    rewrite <- (B5 E) in I. exact (M6 _ I eq_refl).
Qed.

(** ** Ports and several filters *)
Lemma signed_spec s n : no_ws s -> (py_int_signed s = Ok n <-> integer_text s n).
Proof.
  intros W. unfold py_int_signed, integer_text. rewrite (strip_no_ws s W).
  assert (D : forall c r m, numeral_value (String c r) = Some m -> c <> "-"%char /\ c <> "+"%char).
  { intros c r m H. cbn in H. split; intros ->; discriminate H. }
  destruct s as [|c r].
  - rewrite py_int_numeral. split; [intros H; left; exact H|]. intros [H|[(r & H & _)|(r & m & H & _)]]; [exact H|discriminate..].
  - destruct (ascii_dec c "-") as [->|N1]; [|destruct (ascii_dec c "+") as [->|N2]].
    + destruct (py_int r) as [m|e] eqn:E; cbn [bind].
      * apply py_int_numeral in E. split.
        -- intros [= <-]. right. right. exists r, m. auto.
        -- intros [H|[(r' & H & _)|(r' & m' & H & E' & ->)]].
           ++ discriminate H.
           ++ discriminate H.
           ++ injection H as <-. congruence.
      * split; [discriminate|]. intros [H|[(r' & H & _)|(r' & m' & H & E' & ->)]]; [discriminate H..|].
        injection H as <-. apply py_int_numeral in E'. congruence.
    + rewrite py_int_numeral. split.
      * intros H. right. left. eauto.
      * intros [H|[(r' & H & E')|(r' & m' & H & _)]]; [discriminate H| |discriminate H]. injection H as <-. exact E'.
    + replace (match String c r with String "-" r0 => let! n0 := py_int r0 in Ok (- n0) | String "+" r0 => py_int r0 | r0 => py_int r0 end)
        with (py_int (String c r)).
      * rewrite py_int_numeral. split; [auto|]. intros [H|[(r' & H & _)|(r' & m' & H & _)]]; [exact H|injection H; intros; congruence..].
      * destruct c as [[] [] [] [] [] [] [] []]; try reflexivity; [exfalso; apply N2; reflexivity|exfalso; apply N1; reflexivity].
Qed.
Lemma port_text_ok s n : no_ws s -> (port_of_text s = Ok n <-> integer_text s n /\ 0 <= n <= 65535).
Proof.
  intros W. rewrite <- (signed_spec s n W). unfold port_of_text, port_check.
  destruct (py_int_signed s) as [m|e]; [|split; [discriminate|intros [H _]; discriminate]].
  destruct ((m <? 0) || (65535 <? m)) eqn:E.
  - split; [discriminate|]. intros [[= ->] H]. lia.
  - split; [intros [= <-]; split; [reflexivity|lia]|]. intros [H _]. exact H.
Qed.
Lemma port_text_raise s e : no_ws s -> port_of_text s = Raise e ->
  (e = Exn "BadPortRange" /\ exists n, integer_text s n /\ (n < 0 \/ 65535 < n)) \/
  (e = Exn "BadPortValue" /\ forall n, ~ integer_text s n).
Proof.
  intros W. unfold port_of_text, port_check. destruct (py_int_signed s) as [m|e'] eqn:E.
  - destruct ((m <? 0) || (65535 <? m)) eqn:B; [|discriminate]. intros [= <-]. left. split; [reflexivity|].
    exists m. split; [apply signed_spec; assumption|lia].
  - intros [= <-]. right. split; [reflexivity|]. intros n H. apply (signed_spec s n W) in H. congruence.
Qed.

Lemma check_policy_spec q : forall fs ms ex, check_policy q fs = Ok (ms, ex) ->
  exists parts, Forall2 (fun f part => exists n, filter_name (fst f) = Ok n /\ part = check_terms q n (snd f)) fs parts /\
    ms = flat_map fst parts /\ ex = flat_map snd parts.
Proof.
  induction fs as [|(h & ts) fs IH]; intros ms ex H; cbn [check_policy] in H.
  - injection H as <- <-. exists []. auto.
  - destruct (filter_name h) as [n|] eqn:En; cbn [bind] in H; [|discriminate].
    destruct (check_policy q fs) as [(ms' & ex')|]; cbn [bind] in H; [|discriminate]. injection H as <- <-.
    destruct (IH _ _ eq_refl) as (parts & F & -> & ->). exists (check_terms q n ts :: parts).
    split; [constructor; [exists n; auto|assumption]|]. auto.
Qed.

(** ** Containment of protocol and address lists *)
Lemma protocol_contained_spec sup sub : check_protocol_is_contained sup sub = true <->
  forall x, any_or sub (eq x) -> any_or sup (eq x).
Proof.
  unfold check_protocol_is_contained, any_or. destruct sup as [|a sup]; [split; [intros; left; reflexivity|reflexivity]|].
  destruct sub as [|b sub].
  - split; [discriminate|]. intros H. exfalso. destruct (fresh_proto (a :: sup)) as (s & Hs).
    destruct (H s (or_introl eq_refl)) as [F|(y & Hy & <-)]; [discriminate|auto].
  - rewrite forallb_forall. split.
    + intros H x [F|(y & Hy & <-)]; [discriminate|]. right. exists x. split; [|reflexivity]. apply str_in_spec. auto.
    + intros H x Hx. apply str_in_spec. destruct (H x) as [F|(y & Hy & <-)]; [right; eauto|discriminate|assumption].
Qed.
Lemma address_contained_sound sup sub : valid_list sup -> valid_list sub -> check_address_is_contained sup sub = true ->
  forall x, (sub = [] \/ covered sub x) -> (sup = [] \/ covered sup x).
Proof.
  intros V W H x. unfold check_address_is_contained in H. destruct sup as [|a sup]; [auto|].
  destruct sub as [|b sub]; [discriminate|]. rewrite forallb_forall in H. intros [F|(n & Hn & Hc)]; [discriminate|].
  right. specialize (H n Hn). apply existsb_exists in H. destruct H as (m & Hm & S). exists m. split; [assumption|].
  apply (subnet_of_spec n m) in S; [exact (S x Hc)|exact (proj1 (Forall_forall _ _) W _ Hn)|exact (proj1 (Forall_forall _ _) V _ Hm)].
Qed.
Lemma address_contained_single sup sub : valid_list sup -> valid_list sub -> sup <> [] -> sub <> [] ->
  (check_address_is_contained sup sub = true <-> forall n, In n sub -> exists m, In m sup /\ forall x, covers n x -> covers m x).
Proof.
  intros V W N1 N2. unfold check_address_is_contained. destruct sup as [|a sup]; [congruence|].
  destruct sub as [|b sub]; [congruence|]. rewrite forallb_forall. split; intros H n Hn; specialize (H n Hn).
  - apply existsb_exists in H. destruct H as (m & Hm & S). exists m. split; [assumption|].
    apply (subnet_of_spec n m) in S; [exact S|exact (proj1 (Forall_forall _ _) W _ Hn)|exact (proj1 (Forall_forall _ _) V _ Hm)].
  - destruct H as (m & Hm & S). apply existsb_exists. exists m. split; [assumption|].
    apply (subnet_of_spec n m); [exact (proj1 (Forall_forall _ _) W _ Hn)|exact (proj1 (Forall_forall _ _) V _ Hm)|exact S].
Qed.
