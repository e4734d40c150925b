(** One term of an SRX policy: its application, its policy and what they stand for. *)
From Coq Require Import Lia ZifyBool ZifyNat Permutation.
From Verif Require Import SpecSrx BaseFacts TextProofs PyStrFacts PortProofs PolicyProofs GenProofs GenProofs2 CiscoProofs CiscoProofs2 ArubaProofs JuniperText JuniperProofs JuniperTerm GceDecide QuietTerm SrxText SrxRead SrxApps.
Local Open Scope string_scope.
Local Open Scope list_scope.
Local Open Scope Z_scope.

(** ** What a term asks for, beyond its addresses *)
Definition service_matches (t : term) (p : packet) : Prop :=
  any_or (t_protocol t) (eq (p_proto p)) /\ ports_match (t_source_port t) (p_sport p) /\ ports_match (t_destination_port t) (p_dport p) /\
  any_or (t_icmp_type t) (eq (p_icmp_type p)).
Definition rest_matches (t : term) (p : packet) : Prop :=
  any_or (t_dscp_match t) (eq (p_dscp p)) /\ none_of (t_dscp_except t) (eq (p_dscp p)) /\
  any_or (t_source_zone t) (eq (p_src_zone p)) /\ any_or (t_destination_zone t) (eq (p_dst_zone p)).
Lemma srx_matches filters ps ts t p vs : check_tokens "srx" srx_tokens filters = Ok tt -> In (ps, ts) filters -> In "srx" ps -> In t ts -> meant_for "srx" t ->
  srx_term_ok vs t -> p_platform p = "srx" ->
  term_matches t p <-> side_matches (t_source_address t) (t_source_address_exclude t) (p_src p) /\
    side_matches (t_destination_address t) (t_destination_address_exclude t) (p_dst p) /\ service_matches t p /\ rest_matches t p.
Proof.
  intros H I1 I2 I3 M K Pl. destruct (sx_warned _ _ K) as (E1 & E2 & E3 & E4). destruct (sx_texts _ _ K) as (E8 & E9). pose proof (sx_options _ _ K) as Eo.
  pose proof (unsupported_not_set "srx" srx_tokens filters ps ts t H I1 I2 I3 M) as U.
  assert (N : forall s, str_in s (supported srx_tokens) = false -> ~ In s (supported srx_tokens)) by (intros s E X; apply str_in_spec in X; congruence).
  destruct U as (U1 & U2 & _ & _ & _ & _ & U3 & _ & _ & _ & U4 & _ & U5 & U6 & U7 & U8 & U9 & U10 & U11 & U12 & U13 & U14 & U15 & _ & _ & _ & _ & U20 & U21 & U22 & U23 & U24 & U25).
  assert (O : forall {A} (o : option A) x, o = None \/ o = Some x -> o <> Some x -> o = None) by (intros A o x [X|X] Y; [exact X|contradiction]).
  assert (T : forall o, o = None \/ o = Some "" -> forall n, text_range o n) by (intros o [->| ->] n; [exact Logic.I|left; reflexivity]).
  assert (B1 := U1 (N "address" eq_refl)). assert (B2 := U2 (N "address_exclude" eq_refl)). assert (B3 := U3 (N "port" eq_refl)). assert (B4 := U4 (N "protocol_except" eq_refl)).
  assert (B5 := U5 (N "source_prefix" eq_refl)). assert (B6 := U6 (N "source_prefix_except" eq_refl)). assert (B7 := U7 (N "destination_prefix" eq_refl)). assert (B8 := U8 (N "destination_prefix_except" eq_refl)).
  assert (B9 := U9 (N "precedence" eq_refl)). assert (B10 := U10 (N "forwarding_class" eq_refl)). assert (B11 := U11 (N "forwarding_class_except" eq_refl)). assert (B13 := U13 (N "icmp_code" eq_refl)).
  assert (B14 := U14 (N "ether_type" eq_refl)). assert (B15 := U15 (N "traffic_type" eq_refl)). assert (B20 := O _ _ _ (U20 (N "ttl" eq_refl)) E4).
  assert (B21 := T _ (U21 (N "fragment_offset" eq_refl))). assert (B22 := T _ (U22 (N "hop_limit" eq_refl))). assert (B23 := T _ (U23 (N "packet_length" eq_refl))).
  assert (B24 := O _ _ _ (U24 (N "source_interface" eq_refl)) E8). assert (B25 := O _ _ _ (U25 (N "destination_interface" eq_refl)) E9).
  clear U1 U2 U3 U4 U5 U6 U7 U8 U9 U10 U11 U12 U13 U14 U15 U20 U21 U22 U23 U24 U25.
  unfold service_matches, rest_matches, term_matches, addresses_match, protocols_match, all_ports_match, prefixes_match, options_match, numbers_match, icmp_match, place_matches, link_matches.
  rewrite B1, B2, B3, B4, B5, B6, B7, B8, B9, B10, B11, B13, B14, B15, B20, B24, B25, E1, E2, E3, Eo, Pl. split.
  - intros ((_ & A1 & A2) & (A3 & _) & (_ & A5 & A4) & _ & _ & _ & (A7 & _) & (_ & _ & A8 & A9) & (_ & _ & A10 & A11 & _)). auto 15.
  - intros (A1 & A2 & (A3 & A4 & A5 & A7) & (A8 & A9 & A10 & A11)).
    assert (Nn : forall (P : string -> Prop), any_or [] P) by (left; reflexivity). destruct M as (M1 & M2).
    split; [split; [left; auto|auto]|]. split; [split; [exact A3|apply none_nil]|]. split; [split; [left; left; reflexivity|split; [exact A4|exact A5]]|].
    split. { split; [apply Nn|]. split; [apply none_nil|]. split; [apply Nn|]. split; [apply none_nil|]. split; apply Nn. }
    split. { split; [apply Nn|]. split; [intros o []|]. split; [apply Nn|apply none_nil]. }
    split. { split; [apply B21|]. split; [apply B22|]. split; [apply B23|exact Logic.I]. }
    split. { split; [exact A7|left; reflexivity]. }
    split. { split; [destruct M1 as [->|I]; [apply Nn|right; eexists; split; [exact I|reflexivity]]|]. split; [intros a I E; subst a; exact (M2 I)|]. split; assumption. }
    split; [apply Nn|]. split; [apply Nn|]. split; [exact A8|]. split; [exact A9|]. split; [exact Logic.I|]. split; exact Logic.I.
Qed.

(** ** The application of a term *)
Lemma combos_in a q s d : In (q, s, d) (combos a) <-> In q (or_blank (ap_protocol a)) /\ In s (or_blank (ap_sport a)) /\ In d (or_blank (ap_dport a)).
Proof.
  unfold combos. rewrite in_flat_map. split.
  - intros (q' & Iq & I). apply in_flat_map in I. destruct I as (s' & Is & I). apply in_map_iff in I. destruct I as (d' & E & Id).
    assert (E1 : q' = q /\ s' = s /\ d' = d) by (repeat split; congruence). destruct E1 as (-> & -> & ->). auto.
  - intros (Iq & Is & Id). exists q. split; [exact Iq|]. apply in_flat_map. exists s. split; [exact Is|]. apply in_map_iff. exists d. auto.
Qed.
Lemma conditions_app p a b : (exists n, List.length a = (2 * n)%nat) -> app_conditions p (a ++ b) <-> app_conditions p a /\ app_conditions p b.
Proof.
  intros (n & L). revert a L. induction n as [|n IH]; intros a L.
  - destruct a; [cbn; tauto|discriminate L].
  - destruct a as [|k [|w r]]; [discriminate L|cbn in L; lia|]. cbn [app app_conditions]. rewrite IH; [tauto|cbn in L; lia].
Qed.
Lemma opt_conditions {A} p key (f : A -> string) o : app_conditions p (opt_words key f o) <-> match o with Some x => app_condition p key (f x) | None => True end.
Proof. destruct o; cbn [opt_words app_conditions]; tauto. Qed.
Lemma opt_even {A} key (f : A -> string) o : exists n, List.length (opt_words key f o) = (2 * n)%nat.
Proof. destruct o; [exists 1%nat|exists 0%nat]; reflexivity. Qed.
Lemma combo_conditions p q s d : app_conditions p (combo_words (q, s, d)) <->
  match q with Some x => protocol_word (protocol_text x) p | None => True end /\
  match s with Some w => in_text_range w (p_sport p) | None => True end /\ match d with Some w => in_text_range w (p_dport p) | None => True end.
Proof.
  unfold combo_words. cbn [fst snd]. rewrite (conditions_app p _ _ (opt_even _ _ _)), (conditions_app p _ _ (opt_even _ _ _)), !opt_conditions. reflexivity.
Qed.
Lemma blank_any {A} (l : list A) (P : A -> Prop) : (exists o, In o (or_blank l) /\ match o with Some x => P x | None => True end) <-> l = [] \/ exists x, In x l /\ P x.
Proof.
  destruct l as [|y l].
  - split; [left; reflexivity|]. intros _. exists None. split; [left; reflexivity|exact Logic.I].
  - change (or_blank (y :: l)) with (map Some (y :: l)). split.
    + intros (o & I & H). apply in_map_iff in I. destruct I as (x & <- & I). right. eauto.
    + intros [E|(x & I & H)]; [discriminate E|]. exists (Some x). split; [apply in_map, I|exact H].
Qed.
Lemma plain_conds a p : ap_types a = [] -> (exists ws, In ws (conds a) /\ app_conditions p ws) <->
  (ap_protocol a = [] \/ exists x, In x (ap_protocol a) /\ protocol_word (protocol_text x) p) /\
  (ap_sport a = [] \/ exists w, In w (ap_sport a) /\ in_text_range w (p_sport p)) /\ (ap_dport a = [] \/ exists w, In w (ap_dport a) /\ in_text_range w (p_dport p)).
Proof.
  intros T. unfold conds. rewrite T. cbn [some]. rewrite <- !blank_any. split.
  - intros (ws & I & C). apply in_map_iff in I. destruct I as (((q & s) & d) & <- & I). apply combos_in in I. apply combo_conditions in C.
    destruct I as (I1 & I2 & I3), C as (C1 & C2 & C3). split; [exists q; auto|]. split; [exists s; auto|exists d; auto].
  - intros ((q & I1 & C1) & (s & I2 & C2) & (d & I3 & C3)). exists (combo_words (q, s, d)). split; [apply in_map, combos_in; auto|apply combo_conditions; auto].
Qed.
Lemma protocol_stand p xs qs : stand_for xs qs -> (exists x, In x xs /\ protocol_word (protocol_text x) p) <-> exists q, In q qs /\ p_proto p = q.
Proof.
  assert (One : forall x q, stands_for x q -> protocol_word (protocol_text x) p <-> p_proto p = q).
  { intros x q S. unfold protocol_text. destruct (pval_is "vrrp" x) eqn:V; [|apply stands_says, S]. destruct x as [s|n]; [|discriminate V]. apply String.eqb_eq in V. subst s.
    destruct S as (I & [E|[(_ & E)|[(_ & E)|(_ & E)]]]); try discriminate E. assert (q = "vrrp") by congruence. subst q. unfold protocol_word.
    change (numeral_value "112") with (Some 112). cbv iota beta. apply num_says. vm_compute. tauto. }
  intros F. induction F as [|x q xs qs S F IH].
  - split; intros (w & [] & _).
  - split.
    + intros (y & [<-|I] & H); [exists q; split; [left; reflexivity|apply (One x q S), H]|]. destruct (proj1 IH) as (q' & I' & H'); [eauto|]. exists q'. split; [right; exact I'|exact H'].
    + intros (q' & [<-|I] & H); [exists x; split; [left; reflexivity|apply (One x q S), H]|]. destruct (proj2 IH) as (y & I' & H'); [eauto|]. exists y. split; [right; exact I'|exact H'].
Qed.
Lemma stand_nil xs qs : stand_for xs qs -> xs = [] <-> qs = [].
Proof. intros F. inversion F; split; congruence. Qed.
Lemma ports_texts l n : (forall r, In r l -> 0 <= fst r /\ 0 <= snd r) -> (build_port l = [] \/ exists w, In w (build_port l) /\ in_text_range w n) <-> ports_match l n.
Proof.
  intros H. unfold build_port, ports_match, in_ports. rewrite map_nil. apply or_iff_compat_l. split.
  - intros (w & I & S). apply in_map_iff in I. destruct I as (r & <- & I). exists r. split; [exact I|]. apply port_text_says; [apply (H r I)..|exact S].
  - intros (r & I & S). exists (port_text r). split; [apply in_map, I|]. apply port_text_says; [apply (H r I)..|exact S].
Qed.
Lemma term_stand l ps : term_protocols ["ipip"] l = Ok ps -> (forall q, In q l -> In q (map fst proto_map)) -> stand_for ps l.
Proof.
  intros E H. rewrite (ArubaProofs.term_protocols_named l ps E H). clear E. induction l as [|q l IH]; [constructor|]. cbn [map]. constructor; [|apply IH; intros r I; apply H; right; exact I].
  split; [apply H; left; reflexivity|]. destruct (String.eqb q "ipip") eqn:X; [|left; reflexivity]. apply String.eqb_eq in X. right. left. auto.
Qed.
Lemma named_stand x q s : stands_for x q -> pval_text x = s -> In s ["icmp"; "icmpv6"] -> x = PName s /\ q = s.
Proof.
  intros (I & [->|[(_ & ->)|[(_ & ->)|(_ & ->)]]]) E J; [cbn in E; subst; auto|..]; exfalso; rewrite <- E in J; destruct J as [J|[J|[]]]; discriminate J.
Qed.
Lemma srx_application_spec vs t ps a : srx_term_ok vs t -> term_protocols ["ipip"] (t_protocol t) = Ok ps -> srx_application t ps = Ok a ->
  app_good a /\ ap_name a = t_name t /\ (forall p, (exists ws, In ws (conds a) /\ app_conditions p ws) <-> service_matches t p) /\
  (app_content a = some (t_source_port t) || some (t_destination_port t) || some (t_icmp_type t) || some ps).
Proof.
  intros K Ep Ea. pose proof (term_stand _ _ Ep (fun q I => proj1 (sx_protocol _ _ K q I))) as F. pose proof (stand_replace _ _ _ _ icmpv6_stands F) as F'.
  unfold srx_application in Ea. set (af := match ps with PName "icmp" :: _ => "inet" | PName "icmpv6" :: _ => "inet6" | _ => "unknown_af_icmp" end) in *.
  destruct (normalize_icmp_types (t_icmp_type t) (map pval_text ps) (AfName af)) as [r|e] eqn:En; [|discriminate Ea]. cbn [bind] in Ea. apply ok_inj in Ea. subst a.
  assert (Sp : forall l, some (build_port l) = some l) by (intros [|x l]; reflexivity).
  assert (Sr : some (replace_first "icmpv6" "icmp6" ps) = some ps) by (destruct ps as [|x l]; [reflexivity|]; cbn [replace_first]; destruct (pval_is "icmpv6" x); reflexivity).
  assert (Pp : plain_words (build_port (t_source_port t) ++ build_port (t_destination_port t))).
  { unfold build_port. rewrite <- map_app. apply ports_plain. intros q I. exact (sx_ports _ _ K q I). }
  destruct (t_icmp_type t) as [|ty tys] eqn:Et.
  - assert (r = None) by (cbn in En; apply ok_inj in En; auto). subst r. split; [|split; [|split]].
    + constructor; [apply K|exact (stand_plain _ _ F')|exact Pp|intros X; destruct X; reflexivity].
    + reflexivity.
    + intros p. rewrite plain_conds by reflexivity. cbn [ap_protocol ap_sport ap_dport]. unfold service_matches. rewrite Et, (protocol_stand p _ _ F'), (stand_nil _ _ F').
      rewrite !ports_texts by (intros q I; apply (sx_ports _ _ K q), in_or_app; auto). unfold any_or. split; [intros (A & B & C); split; [|auto]|intros (A & B & C & _); split; [|auto]].
      * destruct A as [A|(q & I & E)]; [left; exact A|right; exists q; auto].
      * destruct A as [A|(q & I & E)]; [left; exact A|right; exists q; auto].
    + unfold app_content. cbn [ap_protocol ap_sport ap_dport ap_types some]. rewrite !Sp, Sr. destruct (some ps), (some (t_source_port t)), (some (t_destination_port t)); reflexivity.
  - assert (Nt : ty :: tys <> []) by discriminate. destruct (sx_type_ports _ _ K) as (Z1 & Z2); [rewrite Et; discriminate|]. rewrite Z1, Z2 in *.
    (* one protocol *)
    assert (One : exists s, In s ["icmp"; "icmpv6"] /\ map pval_text ps = [s]).
    { unfold normalize_icmp_types in En. cbn [some negb] in En.
      destruct (list_str_eqb (map pval_text ps) ["icmp"]) eqn:X1; [apply list_str_eqb_iff in X1; exists "icmp"; cbn; auto|].
      destruct (list_str_eqb (map pval_text ps) ["icmpv6"]) eqn:X2; [apply list_str_eqb_iff in X2; exists "icmpv6"; cbn; auto|]. discriminate En. }
    destruct One as (s & Is & Es). destruct ps as [|x [|y ps]]; try discriminate Es. cbn [map] in Es. assert (Ex : pval_text x = s) by congruence.
    assert (H1 : exists q, t_protocol t = [q] /\ stands_for x q).
    { clear - F. unfold stand_for in F. remember (t_protocol t) as tp eqn:X. clear X. inversion F as [|? q ? qs S F0 E1 E2]. inversion F0. exists q. auto. }
    destruct H1 as (q & E2 & S). destruct (named_stand x q s S Ex Is) as (Ex' & Eq). clear Ex. rename Ex' into Ex.
    assert (Len : forall l, r = Some l -> List.length l = List.length (ty :: tys)).
    { intros l ->. apply normalize_icmp_ok in En. destruct En as (_ & _ & n & table & nums & _ & _ & F2 & Pm). rewrite (Permutation_length Pm). clear - F2. induction F2; cbn [List.length]; congruence. }
    assert (G : forall (s' : string) (v : ver), AfName af = AfName (match v with V4 => "inet" | V6 => "inet6" end) -> replace_first "icmpv6" "icmp6" [x] = [PName s'] ->
        (forall p w, app_condition p (s' ++ "-type")%string w <-> exists n, numeral_value w = Some n /\ In (p_icmp_type p, n) (icmp_types_of v)) ->
        let a := mkApp (t_name t) (build_port []) (build_port []) (replace_first "icmpv6" "icmp6" [x]) (match r with Some l => l | None => [] end) in
        app_good a /\ ap_name a = t_name t /\ (forall p, (exists ws, In ws (conds a) /\ app_conditions p ws) <-> service_matches t p) /\
        app_content a = (some (@nil prange) || some (@nil prange) || some (ty :: tys) || some [x])).
    { intros s' v Ea Er Ty. cbn zeta. rewrite Er.
      assert (Haf : AfName af = AfName "inet" /\ v = V4 \/ AfName af = AfName "inet6" /\ v = V6) by (destruct v; auto).
      destruct (icmp_types_spec (ty :: tys) (map pval_text [x]) (AfName af) v r (mkPacket (V4, 0) (V4, 0) "" 0 0 "" 0 (fun _ => True) (fun _ => True) (fun _ => True) (fun _ => True) (fun _ => True) "" "" 0 0 0 0 "" "" "" "" "" "" "" "" "")) as (l & -> & Nl & Nn & _); [exact Nt|exact Haf|exact En|].
      pose proof (Len l eq_refl) as Ll.
      split; [|split; [|split]].
      - constructor; cbn [ap_name ap_protocol ap_sport ap_dport ap_types].
        + apply K.
        + rewrite <- Er. exact (stand_plain _ _ F').
        + intros w [].
        + intros _. split; [eexists; reflexivity|]. split; [exact Nn|]. pose proof (sx_types _ _ K) as X. rewrite Et in X. unfold Zlen. lia.
      - reflexivity.
      - intros p. destruct (icmp_types_spec (ty :: tys) (map pval_text [x]) (AfName af) v (Some l) p Nt Haf En) as (l' & El & _ & _ & Sp'). assert (l' = l) by congruence. subst l'.
        unfold conds, icmp_text. cbn [ap_types ap_protocol pval_text]. assert (Sl : some l = true) by (destruct l; [congruence|reflexivity]). rewrite Sl.
        assert (Pr : protocol_word s' p <-> any_or (t_protocol t) (eq (p_proto p))).
        { pose proof (stand_says _ _ p F') as X. rewrite Er in X. cbn [map pval_text] in X. split.
          - intros H. destruct (proj1 X) as (q' & I & E); [exists s'; split; [left; reflexivity|exact H]|]. right. exists q'. auto.
          - intros [H|(q' & I & E)]; [rewrite E2 in H; discriminate H|]. destruct (proj2 X) as (w & [<-|[]] & H); [exists q'; auto|exact H]. }
        unfold service_matches. rewrite Et, Z1, Z2, <- Pr, <- Sp'. split.
        + intros (ws & I & C). apply in_map_iff in I. destruct I as (n & <- & I). unfold icmp_words in C. cbn [app_conditions] in C. destruct C as (C1 & C2 & _).
          split; [exact C1|]. split; [left; reflexivity|]. split; [left; reflexivity|]. apply Ty in C2. destruct C2 as (m & C2 & C3). rewrite (dec_value n (Nn n I)) in C2.
          exists n. split; [exact I|]. assert (m = n) by congruence. subst m. exact C3.
        + intros (C1 & _ & _ & (n & I & C3)). exists (icmp_words s' n). split; [apply in_map, I|]. unfold icmp_words. cbn [app_conditions]. split; [exact C1|].
          split; [apply Ty; exists n; split; [apply dec_value, Nn, I|exact C3]|]. split; [reflexivity|exact Logic.I].
      - unfold app_content. cbn [ap_protocol ap_sport ap_dport ap_types some build_port map]. rewrite !orb_true_r. reflexivity. }
    destruct Is as [X|[X|[]]]; rewrite <- X in Ex.
    + apply (G "icmp" V4); [subst af; rewrite Ex; reflexivity|rewrite Ex; reflexivity|]. intros p w. reflexivity.
    + apply (G "icmp6" V6); [subst af; rewrite Ex; reflexivity|rewrite Ex; reflexivity|]. intros p w. reflexivity.
Qed.
