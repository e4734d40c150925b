(** Proofs that whole parsed texts mean what they say. *)
From Coq Require Import Lia ZifyBool ZifyNat.
From Verif Require Import SpecSaid BaseFacts PortNameProofs GenProofs ParseProofs BuildSteps BuildProofs LexProofs PolicyProofs SaidProofs.
Local Open Scope string_scope.
Local Open Scope list_scope.
Local Open Scope Z_scope.

Lemma ok_same {A} (a b : A) : Ok a = Ok b -> a = b.
Proof. intros H. now injection H. Qed.

(** ** A term matches what its text says *)

Lemma mapM_forall2' {A B} (f : A -> res B) l ys : mapM f l = Ok ys -> Forall2 (fun x y => f x = Ok y) l ys.
Proof.
  revert ys. induction l as [|a l IH]; intros ys H; cbn [mapM] in H; [injection H as <-; constructor|].
  destruct (f a) as [b|] eqn:E; [|discriminate]. cbn [bind] in H. destruct (mapM f l) as [bs|]; [|discriminate].
  injection H as <-. constructor; auto.
Qed.
Lemma covered_concat (lookup : string -> res (list net)) ws nets x : mapM lookup ws = Ok nets ->
  (covered (concat nets) x <-> exists name ns, In name ws /\ lookup name = Ok ns /\ covered ns x).
Proof.
  intros H. apply mapM_forall2' in H. induction H as [|w n ws nets Hw H IH]; cbn [concat].
  - split; [intros (n & [] & _)|intros (? & ? & [] & _)].
  - split.
    + intros (m & Hm & C). apply in_app_or in Hm. destruct Hm as [Hm|Hm].
      * exists w, n. split; [now left|]. split; [exact Hw|]. exists m; auto.
      * destruct (proj1 IH) as (w' & n' & H1 & H2 & H3); [exists m; auto|]. exists w', n'. split; [now right|auto].
    + intros (w' & n' & [<-|H1] & H2 & (m & Hm & C)).
      * rewrite Hw in H2. injection H2 as <-. exists m. split; [apply in_or_app; auto|exact C].
      * destruct (proj2 IH) as (m' & Hm' & C'); [exists w', n'; repeat split; auto; exists m; auto|].
        exists m'. split; [apply in_or_app; auto|exact C'].
Qed.
Lemma concat_empty (lookup : string -> res (list net)) ws nets : mapM lookup ws = Ok nets -> (forall w, In w ws -> lookup w <> Ok []) ->
  (concat nets = [] <-> ws = []).
Proof.
  intros H N. apply mapM_forall2' in H. destruct H as [|w n ws nets Hw H]; [split; reflexivity|]. split; [|discriminate].
  cbn [concat]. intros E. apply app_eq_nil in E. destruct E as [-> _]. destruct (N w (or_introl eq_refl) Hw).
Qed.

Section Matches.
  Context (lookup : string -> res (list net)) (services : table).
  Context (name : string) (l : list stmt) (p : pterm).
  Context (built : build_term lookup (name, l) = Ok p).

  Lemma side_iff ki kx gi gx x : In (ki, gi) networks -> In (kx, gx) networks -> names_nonempty lookup l ->
    (side_matches (gi p) (gx p) x <-> text_side lookup l ki kx x).
  Proof.
    intros Hi Hx N.
    destruct (built_networks _ _ _ _ built _ _ Hi) as (ni & Ei & ->).
    destruct (built_networks _ _ _ _ built _ _ Hx) as (nx & Ex & ->).
    unfold side_matches, text_side, named.
    rewrite (covered_concat _ _ _ x Ei), (covered_concat _ _ _ x Ex).
    rewrite (concat_empty _ _ _ Ei) by (intros w Hw; apply (N ki w); [exact (in_map fst _ _ Hi)|exact Hw]).
    reflexivity.
  Qed.
  Lemma empty_iff k g : In (k, g) networks -> names_nonempty lookup l -> (g p = [] <-> words_said k l = []).
  Proof.
    intros Hi N. destruct (built_networks _ _ _ _ built _ _ Hi) as (ni & Ei & ->).
    apply (concat_empty _ _ _ Ei). intros w Hw. apply (N k w); [exact (in_map fst _ _ Hi)|exact Hw].
  Qed.
  Ltac pick := cbn; repeat (try (left; reflexivity); right).
  Lemma addresses_iff pk : names_nonempty lookup l -> (addresses_match (p_term p) pk <-> text_addresses lookup l pk).
  Proof.
    intros N. unfold addresses_match, text_addresses, either_matches.
    rewrite (side_iff "address" "address-exclude" (fun p => t_address (p_term p)) (fun p => t_address_exclude (p_term p)) (p_src pk)) by (try exact N; pick).
    rewrite (side_iff "address" "address-exclude" (fun p => t_address (p_term p)) (fun p => t_address_exclude (p_term p)) (p_dst pk)) by (try exact N; pick).
    rewrite (side_iff "source-address" "source-exclude" (fun p => t_source_address (p_term p)) (fun p => t_source_address_exclude (p_term p)) (p_src pk)) by (try exact N; pick).
    rewrite (side_iff "destination-address" "destination-exclude" (fun p => t_destination_address (p_term p)) (fun p => t_destination_address_exclude (p_term p)) (p_dst pk)) by (try exact N; pick).
    rewrite (empty_iff "address" (fun p => t_address (p_term p))) by (try exact N; pick).
    rewrite (empty_iff "address-exclude" (fun p => t_address_exclude (p_term p))) by (try exact N; pick).
    reflexivity.
  Qed.
  Lemma got k get : In (k, get) collected -> get p = words_said k l.
  Proof. exact (built_collected _ _ _ _ built k get). Qed.
  Lemma held k get : In (k, get) settled -> get p = last_of (words_said k l).
  Proof. exact (built_settled _ _ _ _ built k get). Qed.
  Ltac get k g := let H := fresh in assert (H : g (p_term p) = words_said k l) by (apply (got k (fun p => g (p_term p))); pick); rewrite H; clear H.
  Ltac hold k g := let H := fresh in assert (H : g (p_term p) = last_of (words_said k l)) by (apply (held k (fun p => g (p_term p))); pick); rewrite H; clear H.

  Lemma matches_iff pk : names_nonempty lookup l ->
    (term_matches (p_term p) pk /\
     (named_ports services (r_port (p_raw p)) (t_protocol (p_term p)) (p_sport pk) \/
      named_ports services (r_port (p_raw p)) (t_protocol (p_term p)) (p_dport pk)) /\
     named_ports services (r_source_port (p_raw p)) (t_protocol (p_term p)) (p_sport pk) /\
     named_ports services (r_destination_port (p_raw p)) (t_protocol (p_term p)) (p_dport pk) <->
     text_matches lookup services l pk).
  Proof.
    intros N. unfold term_matches, text_matches. rewrite addresses_iff by exact N.
    unfold text_ports, text_port.
    rewrite <- (got "port" (fun p => r_port (p_raw p))) by pick.
    rewrite <- (got "source-port" (fun p => r_source_port (p_raw p))) by pick.
    rewrite <- (got "destination-port" (fun p => r_destination_port (p_raw p))) by pick.
    assert (A : all_ports_match (p_term p) pk <-> True).
    { destruct (built_no_ports _ _ _ _ built) as (E1 & E2 & E3). unfold all_ports_match, ports_match.
      rewrite E1, E2, E3. tauto. }
    rewrite A.
    assert (B : protocols_match (p_term p) pk <->
      one_of l "protocol" (eq (p_proto pk)) /\ no_one_of l "protocol-except" (eq (p_proto pk))).
    { unfold protocols_match, one_of, no_one_of. get "protocol" t_protocol. get "protocol-except" t_protocol_except. reflexivity. }
    rewrite B.
    assert (C : prefixes_match (p_term p) pk <->
      one_of l "source-prefix" (p_src_prefix pk) /\ no_one_of l "source-prefix-except" (p_src_prefix pk) /\
      one_of l "destination-prefix" (p_dst_prefix pk) /\ no_one_of l "destination-prefix-except" (p_dst_prefix pk) /\
      one_of l "source-tag" (p_src_tag pk) /\ one_of l "destination-tag" (p_dst_tag pk)).
    { unfold prefixes_match, one_of, no_one_of. get "source-prefix" t_source_prefix.
      get "source-prefix-except" t_source_prefix_except. get "destination-prefix" t_destination_prefix.
      get "destination-prefix-except" t_destination_prefix_except. get "source-tag" t_source_tag.
      get "destination-tag" t_destination_tag. reflexivity. }
    rewrite C.
    assert (D : options_match (p_term p) pk <->
      (forall o, In o (words_said "option" l) -> p_option pk o) /\
      (forall v, last_of (said "precedence" l) = Some v -> any_or (value_numbers v) (fun n => p_precedence pk = dec n)) /\
      one_of l "forwarding-class" (eq (p_class pk)) /\ no_one_of l "forwarding-class-except" (eq (p_class pk))).
    { unfold options_match, one_of, no_one_of. get "option" t_option. get "forwarding-class" t_forwarding_class.
      get "forwarding-class-except" t_forwarding_class_except. rewrite (built_precedence _ _ _ _ built).
      assert (P : any_or match last_of (said "precedence" l) with Some v => map dec (value_numbers v) | None => [] end
                    (eq (p_precedence pk)) <->
        forall v, last_of (said "precedence" l) = Some v -> any_or (value_numbers v) (fun n => p_precedence pk = dec n)).
      { destruct (last_of (said "precedence" l)) as [v|]; [|split; [intros _ v E; discriminate E|intros _; left; reflexivity]].
        unfold any_or. split.
        - intros H v' E. injection E as <-. destruct H as [H|(a & Ha & Ea)]; [left; now apply map_eq_nil in H|right].
          apply in_map_iff in Ha. destruct Ha as (n & <- & Hn). eauto.
        - intros H. destruct (H v eq_refl) as [E|(n & Hn & En)]; [left; now rewrite E|right].
          exists (dec n). split; [now apply in_map|exact En]. }
      rewrite P. tauto. }
    rewrite D.
    assert (E : numbers_match (p_term p) pk <->
      text_number l "fragment-offset" (p_fragment pk) /\ text_number l "hop-limit" (p_hops pk) /\
      text_number l "packet-length" (p_length pk) /\
      (forall w, last_of (words_said "ttl" l) = Some w -> numeral_value w = Some (p_ttl pk))).
    { unfold numbers_match, text_number. hold "fragment-offset" t_fragment_offset. hold "hop-limit" t_hop_limit.
      hold "packet-length" t_packet_length. pose proof (built_ttl _ _ _ _ built) as T.
      assert (P : opt_eq (t_ttl (p_term p)) (p_ttl pk) <->
        forall w, last_of (words_said "ttl" l) = Some w -> numeral_value w = Some (p_ttl pk)).
      { destruct (last_of (words_said "ttl" l)) as [w|].
        - destruct T as (n & En & ->). cbn [opt_eq]. split.
          + intros -> w' Ew. injection Ew as <-. exact En.
          + intros H. specialize (H w eq_refl). congruence.
        - rewrite T. split; [intros _ w E'; discriminate E'|intros _; exact Logic.I]. }
      rewrite P. tauto. }
    rewrite E.
    assert (F : icmp_match (p_term p) pk <->
      one_of l "icmp-type" (eq (p_icmp_type pk)) /\ any_or (numbers_said "icmp-code" l) (eq (p_icmp_code pk))).
    { unfold icmp_match, one_of. get "icmp-type" t_icmp_type. rewrite (built_icmp_code _ _ _ _ built). reflexivity. }
    rewrite F.
    assert (G : place_matches (p_term p) pk <->
      one_of l "platform" (eq (p_platform pk)) /\ no_one_of l "platform-exclude" (eq (p_platform pk)) /\
      one_of l "source-zone" (eq (p_src_zone pk)) /\ one_of l "destination-zone" (eq (p_dst_zone pk))).
    { unfold place_matches, one_of, no_one_of. get "platform" t_platform. get "platform-exclude" t_platform_exclude.
      get "source-zone" t_source_zone. get "destination-zone" t_destination_zone. reflexivity. }
    rewrite G.
    assert (H : link_matches (p_term p) pk <->
      one_of l "ether-type" (eq (p_ether pk)) /\ one_of l "traffic-type" (eq (p_traffic pk)) /\
      one_of l "dscp-match" (eq (p_dscp pk)) /\ no_one_of l "dscp-except" (eq (p_dscp pk)) /\
      text_one l "source-interface" (p_src_if pk) /\ text_one l "destination-interface" (p_dst_if pk) /\
      text_one l "restrict-address-family" (p_family pk)).
    { unfold link_matches, one_of, no_one_of, text_one. get "ether-type" t_ether_type. get "traffic-type" t_traffic_type.
      get "dscp-match" t_dscp_match. get "dscp-except" t_dscp_except. hold "source-interface" t_source_interface.
      hold "destination-interface" t_destination_interface. hold "restrict-address-family" t_restrict_address_family.
      reflexivity. }
    rewrite H. get "protocol" t_protocol. tauto.
  Qed.
End Matches.

(** ** Translation keeps the other attributes *)

(** The attribute is not among those that translation assigns. *)
Definition not_assigned {A} (get : term -> A) : Prop :=
  (forall v u, get (set_translated v u) = get u) /\ (forall v u, get (set_address v u) = get u) /\
  (forall v u, get (set_source_address v u) = get u) /\ (forall v u, get (set_source_address_exclude v u) = get u) /\
  (forall v u, get (set_destination_address v u) = get u) /\
  (forall v u, get (set_destination_address_exclude v u) = get u) /\
  (forall v u, get (set_port v u) = get u) /\ (forall v u, get (set_source_port v u) = get u) /\
  (forall v u, get (set_destination_port v u) = get u).
Lemma translate_keeps {A} (get : term -> A) fuel services optimize addressbook r t :
  not_assigned get ->
  translate_term fuel services optimize addressbook r = Ok t -> get t = get (r_term r).
Proof.
  intros (N1 & N2 & N3 & N4 & N5 & N6 & N7 & N8 & N9) H. unfold translate_term in H. cbv zeta in H.
  destruct (translate_field _ _ (r_port r) _) as [p0|]; cbn [bind] in H; [|discriminate].
  destruct (translate_field _ _ (r_source_port r) _) as [sp0|]; cbn [bind] in H; [|discriminate].
  destruct (translate_field _ _ (r_destination_port r) _) as [dp0|]; cbn [bind] in H; [|discriminate].
  assert (E0 : get (set_port p0 (set_source_port sp0 (set_destination_port dp0 (r_term r)))) = get (r_term r))
    by (rewrite N7, N8, N9; reflexivity).
  revert H E0. generalize (set_port p0 (set_source_port sp0 (set_destination_port dp0 (r_term r)))). intros t0 H E0.
  destruct (address_cleanup optimize addressbook t0) as [t1|] eqn:E; cbn [bind] in H; [|discriminate].
  assert (E1 : get t1 = get t0).
  { unfold address_cleanup in E.
    destruct (clean _ _ (t_address t0) _) as [a|]; cbn [bind] in E; [|discriminate].
    destruct (clean _ _ (t_source_address t0) _) as [s|]; cbn [bind] in E; [|discriminate].
    destruct (clean _ _ (t_source_address_exclude t0) _) as [sx|]; cbn [bind] in E; [|discriminate].
    destruct (clean _ _ (t_destination_address t0) _) as [d|]; cbn [bind] in E; [|discriminate].
    destruct (clean _ _ (t_destination_address_exclude t0) _) as [dx|]; cbn [bind] in E; [|discriminate].
    apply ok_same in E. rewrite <- E, N2, N3, N4, N5, N6, N7, N8, N9. reflexivity. }
  destruct (sanity_check t1) as [[]|]; cbn [bind] in H; [|discriminate].
  apply ok_same in H. rewrite <- H, N1. congruence.
Qed.
Ltac kept := repeat apply conj; intros v u; reflexivity.

Section Reads.
  Context (lookup : string -> res (list net)) (fuel : nat) (services : table) (optimize : bool).
  Context (lookup_valid : forall n nets, lookup n = Ok nets -> valid_list nets).
  Context (wf : well_formed services).

  Lemma built_valid name l p : build_term lookup (name, l) = Ok p -> term_valid (p_term p).
  Proof.
    intros B. assert (G : forall k g, In (k, g) networks -> valid_list (g p)).
    { intros k g H. destruct (built_networks _ _ _ _ B _ _ H) as (nets & E & ->). apply mapM_forall2' in E.
      unfold valid_list. induction E as [|w n ws nets Hw E IH]; cbn [concat]; [constructor|].
      apply Forall_app. split; [exact (lookup_valid _ _ Hw)|exact IH]. }
    unfold term_valid. repeat apply conj.
    - apply (G "address" (fun p => t_address (p_term p))). cbn; tauto.
    - apply (G "address-exclude" (fun p => t_address_exclude (p_term p))). cbn; tauto.
    - apply (G "source-address" (fun p => t_source_address (p_term p))). cbn; tauto.
    - apply (G "source-exclude" (fun p => t_source_address_exclude (p_term p))). cbn; tauto.
    - apply (G "destination-address" (fun p => t_destination_address (p_term p))). cbn; tauto.
    - apply (G "destination-exclude" (fun p => t_destination_address_exclude (p_term p))). cbn; tauto.
  Qed.

  Lemma translated_reads addressbook x p t : build_term lookup x = Ok p ->
    translate_term fuel services optimize addressbook (p_raw p) = Ok t -> term_reads lookup services x (t, p_extra p).
  Proof.
    destruct x as [name l]. intros B T. pose proof (built_no_ports _ _ _ _ B) as (P1 & P2 & P3).
    destruct (translate_term_spec fuel services optimize addressbook (p_raw p) t wf (built_valid _ _ _ B) P1 P2 P3 T) as [A M].
    unfold term_reads. cbn [fst snd].
    split; [|split; [exact A|split; [|split; [|split; [|split; [|split]]]]]].
    - rewrite (translate_keeps t_name) with (2 := T) by kept. exact (built_name _ _ _ _ B).
    - rewrite (translate_keeps t_action) with (2 := T) by kept.
      apply (built_collected _ _ _ _ B "action" (fun p => t_action (p_term p))). cbn; tauto.
    - rewrite (translate_keeps t_logging) with (2 := T) by kept.
      apply (built_collected _ _ _ _ B "logging" (fun p => t_logging (p_term p))). cbn; tauto.
    - rewrite (translate_keeps t_option) with (2 := T) by kept.
      apply (built_collected _ _ _ _ B "option" (fun p => t_option (p_term p))). cbn; tauto.
    - rewrite (translate_keeps t_comment) with (2 := T) by kept. exact (built_comment _ _ _ _ B).
    - rewrite (translate_keeps t_expiration) with (2 := T) by kept.
      pose proof (built_expiration _ _ _ _ B) as X. intros n. change (r_term (p_raw p)) with (p_term p).
      destruct (last_of (said "expiration" l)) as [v|].
      + destruct X as (y & m & d & n' & -> & E & ->). split.
        * intros H. injection H as <-. exists y, m, d. auto.
        * intros (y' & m' & d' & H1 & H2). injection H1 as <- <- <-. congruence.
      + rewrite X. split; [discriminate|]. intros (y & m & d & H & _). discriminate H.
    - intros N pk. rewrite M. apply (matches_iff _ services _ _ _ B pk N).
  Qed.
End Reads.

(** ** Headers *)

Lemma header_step s h h' : header_add s h = Ok h' ->
  h_targets h' = h_targets h ++ (if String.eqb (fst s) "target" then target_of (snd s) else []) /\
  h_comment h' = h_comment h ++ (if String.eqb (fst s) "comment" then map comment_value (value_words (snd s)) else []) /\
  h_apply_groups h' = h_apply_groups h ++ (if String.eqb (fst s) "apply-groups" then value_words (snd s) else []) /\
  h_apply_groups_except h' =
    h_apply_groups_except h ++ (if String.eqb (fst s) "apply-groups-except" then value_words (snd s) else []).
Proof.
  destruct s as [k v], h as [t c a e]. unfold header_add. cbn [fst snd].
  destruct v as [l|v|l|x y|y m d|x y|l]; intros H; try discriminate H.
  - destruct (String.eqb_spec k "target") as [->|_].
    { destruct l as [|n o]; [discriminate|]. injection H as <-. cbn. rewrite !app_nil_r. auto. }
    destruct (String.eqb_spec k "apply-groups") as [->|_]; [injection H as <-; cbn; rewrite !app_nil_r; auto|].
    destruct (String.eqb_spec k "apply-groups-except") as [->|_]; [injection H as <-; cbn; rewrite !app_nil_r; auto|].
    discriminate.
  - destruct (String.eqb_spec k "comment") as [->|_]; [injection H as <-; cbn; rewrite !app_nil_r; auto|discriminate].
Qed.
Lemma header_adds_spec l : forall h h', header_adds l h = Ok h' ->
  h_targets h' = h_targets h ++ flat_map target_of (said "target" l) /\
  h_comment h' = h_comment h ++ map comment_value (words_said "comment" l) /\
  h_apply_groups h' = h_apply_groups h ++ words_said "apply-groups" l /\
  h_apply_groups_except h' = h_apply_groups_except h ++ words_said "apply-groups-except" l.
Proof.
  induction l as [|s l IH]; intros h h' H; cbn [header_adds] in H.
  - injection H as <-. cbn. rewrite !app_nil_r. auto.
  - destruct (header_add s h) as [h1|] eqn:E; [|discriminate]. cbn [bind] in H.
    destruct (IH _ _ H) as (-> & -> & -> & ->). destruct (header_step _ _ _ E) as (-> & -> & -> & ->).
    unfold words_said. rewrite !said_cons, <- !app_assoc.
    repeat apply conj; f_equal.
    + destruct (String.eqb (fst s) "target"); reflexivity.
    + destruct (String.eqb (fst s) "comment"); [cbn [flat_map]; now rewrite map_app|reflexivity].
    + destruct (String.eqb (fst s) "apply-groups"); reflexivity.
    + destruct (String.eqb (fst s) "apply-groups-except"); reflexivity.
Qed.
Lemma build_header_spec l h : build_header l = Ok h -> header_reads l h.
Proof.
  unfold build_header. destruct l as [|s l]; intros H; [injection H as <-; reflexivity|].
  destruct (header_adds (s :: l) new_header) as [h'|] eqn:E; [|discriminate]. cbn [bind] in H. injection H as <-.
  destruct (header_adds_spec _ _ _ E) as (A & B & C & D). cbn in A, B, C, D.
  split; [discriminate|]. auto.
Qed.
Lemma header_fits ts l : stmts_tokens header_takes ts l -> exists h, build_header l = Ok h.
Proof.
  intros H. assert (G : forall h, exists h', header_adds l h = Ok h').
  { induction H as [|ts s ts' l Hs H IH]; intros h; [eexists; reflexivity|].
    assert (E : exists h1, header_add s h = Ok h1).
    { destruct Hs as [k sh vt v Hk Hv]. destruct h as [t c a e].
      destruct sh; cbn [header_takes In] in Hk; repeat (destruct Hk as [Hk|Hk]; [subst k|]); try destruct Hk;
        inversion Hv; subst; try (eexists; reflexivity).
      match goal with l : list string |- _ => destruct l; [congruence|] end. eexists; reflexivity. }
    destruct E as [h1 E]. cbn [header_adds]. rewrite E. apply IH. }
  unfold build_header. destruct l; [eauto|]. destruct (G new_header) as [h E]. rewrite E. eexists. reflexivity.
Qed.

(** ** Whole texts *)

Lemma mapM_map {A B C} (f : B -> res C) (g : A -> B) l : mapM f (map g l) = mapM (fun a => f (g a)) l.
Proof. induction l as [|a l IH]; [reflexivity|]. cbn [map mapM]. now rewrite IH. Qed.

Section Whole.
  Context (lookup : string -> res (list net)) (fuel : nat) (services : table) (optimize : bool).
  Context (lookup_valid : forall n nets, lookup n = Ok nets -> valid_list nets).
  Context (wf : well_formed services).

  Lemma terms_read book ts ps rs : mapM (build_term lookup) ts = Ok ps ->
    mapM (translate_term fuel services optimize book) (map p_raw ps) = Ok rs ->
    Forall2 (term_reads lookup services) ts (combine rs (map p_extra ps)).
  Proof.
    intros H. apply mapM_forall2' in H. revert rs. induction H as [|x p ts ps Hx H IH]; intros rs E.
    - injection E as <-. constructor.
    - cbn [map mapM] in E. destruct (translate_term _ _ _ _ (p_raw p)) as [t|] eqn:T; [|discriminate]. cbn [bind] in E.
      destruct (mapM _ (map p_raw ps)) as [rs'|] eqn:Er; [|discriminate]. cbn [bind] in E. injection E as <-.
      cbn [map combine]. constructor; [|apply IH; reflexivity].
      eapply translated_reads; eassumption.
  Qed.
  Lemma build_filters_reads fs : forall hs pol, build_filters lookup fuel services optimize false hs fs = Ok pol ->
    Forall2 (fun f g => header_reads (fst f) (fst g) /\ Forall2 (term_reads lookup services) (snd f) (snd g)) fs pol.
  Proof.
    induction fs as [|[h ts] fs IH]; intros hs pol H; cbn [build_filters] in H.
    - injection H as <-. constructor.
    - destruct (build_header h) as [h'|] eqn:E1; [|discriminate]. cbn [bind] in H.
      destruct (mapM (build_term lookup) ts) as [ps|] eqn:E2; [|discriminate]. cbn [bind] in H.
      destruct (add_filter _ _ _ _ _ _) as [rs|] eqn:E3; [|discriminate]. cbn [bind] in H.
      destruct (build_filters lookup fuel services optimize false (hs ++ [h']) fs) as [rest|] eqn:E4; [|discriminate].
      cbn [bind] in H. injection H as <-.
      constructor; [|eapply IH; exact E4]. cbn [fst snd]. split; [now apply build_header_spec|].
      unfold add_filter, translate_terms in E3.
      destruct (map p_raw ps) as [|r rs0] eqn:E5; [discriminate|]. rewrite <- E5 in E3.
      match type of E3 with (let! ts := ?m in _) = _ => destruct m as [x|] eqn:E6; [|discriminate] end.
      cbn [bind] in E3. injection E3 as <-. eapply terms_read; eassumption.
  Qed.
  Lemma parse_text_laid_out toks text fs : laid_out toks text -> policy_tokens toks fs ->
    parse_text lookup fuel services optimize false text =
      match fs with [] => Raise (Exn "AttributeError") | _ => build_filters lookup fuel services optimize false [] fs end.
  Proof.
    intros L P. unfold parse_text. rewrite (tokenize_laid_out _ _ L). cbn [bind].
    apply parse_tokens_spec in P. rewrite P. reflexivity.
  Qed.
  Theorem parse_text_reads toks text fs pol : laid_out toks text -> policy_tokens toks fs ->
    parse_text lookup fuel services optimize false text = Ok pol ->
    Forall2 (fun f g => header_reads (fst f) (fst g) /\ Forall2 (term_reads lookup services) (snd f) (snd g)) fs pol.
  Proof.
    intros L P H. rewrite (parse_text_laid_out _ _ _ L P) in H. destruct fs as [|f fs]; [discriminate|].
    eapply build_filters_reads. exact H.
  Qed.
End Whole.
