(** The lines of a Cisco term match exactly what the term matches. *)
From Coq Require Import Lia ZifyBool ZifyNat Permutation.
From Verif Require Import SpecCisco SpecSum IPFacts BaseFacts PyStrFacts SumProofs TextProofs ExcludeProofs PortProofs
  NamingProofs GenProofs GenProofs2 CiscoProofs CiscoProofs2.
Local Open Scope string_scope.
Local Open Scope list_scope.
Local Open Scope Z_scope.

Lemma str_in_iff s l : str_in s l = true <-> In s l.
Proof.
  unfold str_in, memb. rewrite existsb_exists. split.
  - intros (x & I & E). apply String.eqb_eq in E. subst. exact I.
  - intros I. exists s. split; [exact I|apply String.eqb_refl].
Qed.
Lemma str_in_false s l : str_in s l = false <-> ~ In s l.
Proof. rewrite <- str_in_iff. destruct (str_in s l); split; congruence. Qed.

(** What is left of term_matches for the terms concerned *)
Lemma term_matches_cisco c t p : only_cisco_conditions t -> p_platform p = c_platform c ->
  opt_eq (t_restrict_address_family t) (p_family p) ->
  (term_matches t p <->
   any_or (t_platform t) (eq (c_platform c)) /\ ~ In (c_platform c) (t_platform_exclude t) /\
   any_or (t_protocol t) (eq (p_proto p)) /\
   side_matches (t_source_address t) (t_source_address_exclude t) (p_src p) /\
   ports_match (t_source_port t) (p_sport p) /\
   side_matches (t_destination_address t) (t_destination_address_exclude t) (p_dst p) /\
   ports_match (t_destination_port t) (p_dport p) /\
   any_or (t_icmp_type t) (eq (p_icmp_type p)) /\ any_or (t_icmp_code t) (eq (p_icmp_code p)) /\
   (forall o, In o (t_option t) -> p_option p o) /\ any_or (t_dscp_match t) (eq (p_dscp p))).
Proof.
  intros (H1 & H2 & H3 & H4 & H5 & H6 & H7 & H8 & H9 & H10 & H11 & H12 & H13 & H14 & H15 & H16 & H17 & H18 & H19 & H20
          & H21 & H22 & H23 & H24 & _) Hp Hf.
  unfold term_matches, addresses_match, protocols_match, all_ports_match, prefixes_match, options_match, numbers_match,
    icmp_match, place_matches, link_matches.
  rewrite H1, H2, H3, H4, H5, H6, H7, H8, H9, H10, H11, H12, H13, H14, H15, H16, H17, H18, H19, H20, H21, H22, H23, H24, Hp.
  assert (E : forall (P : string -> Prop), any_or [] P) by (intros P; left; reflexivity).
  assert (F : forall (P : string -> Prop), none_of [] P) by (intros P a []).
  assert (G : none_of (t_platform_exclude t) (eq (c_platform c)) <-> ~ In (c_platform c) (t_platform_exclude t)).
  { unfold none_of. split; [intros X I; exact (X _ I eq_refl)|intros X a I <-; exact (X I)]. }
  rewrite G. cbn [text_range opt_eq]. split.
  - intros ((_ & A1 & A2) & (B & _) & (_ & C1 & C2) & _ & (_ & D & _) & _ & (E1 & E2) & (P1 & P2 & _) & (_ & _ & L & _)).
    auto 15.
  - intros (P1 & P2 & B & A1 & C1 & A2 & C2 & E1 & E2 & D & L).
    split; [split; [left; split; reflexivity|auto]|]. split; [auto|].
    split; [split; [left; left; reflexivity|auto]|]. split; [auto 10|]. split; [auto|]. split; [auto|]. split; [auto|].
    split; [auto|]. auto 10.
Qed.

Theorem cisco_term_exact c t p lines a rest :
  cisco_term_ok c t -> cisco_packet c t p -> cisco_term c t = Ok lines -> t_action t = a :: rest ->
  ((exists line, In line lines /\ line_matches (c_ver c) (verdict a) line p) <-> term_matches t p) /\
  (forall line act, In line lines -> line_matches (c_ver c) act line p -> act = verdict a).
Proof.
  intros K Q H Ea. destruct K as [Kaf Kd Ko Ka Ks Kt Kp K6 Ki Kpo Kc Kopt Kds].
  destruct Q as [(Qs1 & Qs2) (Qd1 & Qd2) Qi Qe Qf Qp Qfam].
  rewrite (term_matches_cisco c t p Ko Qp Qfam).
  unfold cisco_term in H. rewrite (term_protocols_named (t_protocol t)) in H by (intros q I; apply Kp, I).
  cbn [bind] in H.
  assert (Dead : forall ls, lines = ls -> (forall line act, In line ls -> ~ line_matches (c_ver c) act line p) ->
     ~ (any_or (t_platform t) (eq (c_platform c)) /\ ~ In (c_platform c) (t_platform_exclude t) /\
        any_or (t_protocol t) (eq (p_proto p)) /\
        side_matches (t_source_address t) (t_source_address_exclude t) (p_src p) /\
        ports_match (t_source_port t) (p_sport p) /\
        side_matches (t_destination_address t) (t_destination_address_exclude t) (p_dst p) /\
        ports_match (t_destination_port t) (p_dport p) /\
        any_or (t_icmp_type t) (eq (p_icmp_type p)) /\ any_or (t_icmp_code t) (eq (p_icmp_code p)) /\
        (forall o, In o (t_option t) -> p_option p o) /\ any_or (t_dscp_match t) (eq (p_dscp p))) ->
     ((exists line, In line lines /\ line_matches (c_ver c) (verdict a) line p) <->
      (any_or (t_platform t) (eq (c_platform c)) /\ ~ In (c_platform c) (t_platform_exclude t) /\
        any_or (t_protocol t) (eq (p_proto p)) /\
        side_matches (t_source_address t) (t_source_address_exclude t) (p_src p) /\
        ports_match (t_source_port t) (p_sport p) /\
        side_matches (t_destination_address t) (t_destination_address_exclude t) (p_dst p) /\
        ports_match (t_destination_port t) (p_dport p) /\
        any_or (t_icmp_type t) (eq (p_icmp_type p)) /\ any_or (t_icmp_code t) (eq (p_icmp_code p)) /\
        (forall o, In o (t_option t) -> p_option p o) /\ any_or (t_dscp_match t) (eq (p_dscp p)))) /\
     (forall line act, In line lines -> line_matches (c_ver c) act line p -> act = verdict a)).
  { intros ls -> N D. split.
    - split; [intros (line & I & M); exfalso; exact (N _ _ I M)|intros X; exfalso; exact (D X)].
    - intros line act I M. exfalso. exact (N _ _ I M). }
  (* platform *)
  destruct ((some (t_platform t) && negb (str_in (c_platform c) (t_platform t)))
     || (some (t_platform_exclude t) && str_in (c_platform c) (t_platform_exclude t))) eqn:EP.
  { apply ok_inj in H. apply (Dead [] (eq_sym H)); [intros line act []|].
    intros (P1 & P2 & _). apply orb_true_iff in EP. destruct EP as [EP|EP]; apply andb_true_iff in EP; destruct EP as (X & Y).
    - apply negb_true_iff, str_in_false in Y. destruct P1 as [E|(q & I & <-)]; [rewrite E in X; discriminate X|auto].
    - apply str_in_iff in Y. auto. }
  apply orb_false_iff in EP. destruct EP as (EP1 & EP2).
  assert (P1 : any_or (t_platform t) (eq (c_platform c))).
  { destruct (t_platform t) as [|q0 l0] eqn:E; [left; reflexivity|]. cbn [some andb] in EP1. apply negb_false_iff, str_in_iff in EP1.
    right. exists (c_platform c). auto. }
  assert (P2 : ~ In (c_platform c) (t_platform_exclude t)).
  { apply str_in_false. destruct (t_platform_exclude t) as [|q0 l0]; [reflexivity|exact EP2]. }
  (* the other ICMP *)
  assert (Hv : (c_af c = 4 /\ c_ver c = V4) \/ (c_af c = 6 /\ c_ver c = V6)).
  { unfold c_ver. destruct Kaf as [->| ->]; auto. }
  destruct (((c_af c =? 6) && str_in "icmp" (t_protocol t)) || ((c_af c =? 4) && str_in "icmpv6" (t_protocol t))) eqn:EI.
  { apply ok_inj in H. apply (Dead [] (eq_sym H)); [intros line act []|].
    intros (_ & _ & B & _). destruct Ki as (Ki1 & Ki2). apply orb_true_iff in EI.
    destruct EI as [EI|EI]; apply andb_true_iff in EI; destruct EI as (X & Y); apply str_in_iff in Y; apply Z.eqb_eq in X;
      destruct Hv as [(X' & V)|(X' & V)]; try congruence; rewrite V in Qi;
      (destruct B as [E|(q & I & E)]; [rewrite E in Y; destruct Y|]).
    - apply Qi. rewrite E. apply (Ki1 X Y q I).
    - apply Qi. rewrite E. apply (Ki2 X Y q I). }
  apply orb_false_iff in EI. destruct EI as (EI1 & EI2).
  assert (Nic : c_af c = 6 -> forall q, In q (t_protocol t) -> q <> "icmp").
  { intros X q I ->. rewrite X in EI1. cbn [Z.eqb Pos.eqb andb] in EI1. apply str_in_false in EI1. auto. }
  assert (Nic6 : c_af c = 4 -> forall q, In q (t_protocol t) -> q <> "icmpv6").
  { intros X q I ->. rewrite X in EI2. cbn [Z.eqb Pos.eqb andb] in EI2. apply str_in_false in EI2. auto. }
  assert (Vb : t_verbatim t = []) by apply Ko. rewrite Vb in H. cbn [some] in H.
  set (pcol := cisco_protocols c (map named_pval (t_protocol t))) in *.
  (* addresses *)
  destruct Ks as (Ks1 & Ks2 & Ks3). destruct Kt as (Kt1 & Kt2 & Kt3).
  assert (Kd' : c_dsmo c = true -> c_ver c = V4).
  { intros X. specialize (Kd X). unfold c_ver. rewrite Kd. reflexivity. }
  destruct (cisco_addresses c (t_source_address t) (t_source_address_exclude t)) as [src|e] eqn:Es; [|discriminate H].
  cbn [bind] in H. pose proof (cisco_addresses_spec c _ _ src Kd' Ks1 Ks2 Ks3 Es) as Ss.
  assert (Xs : p_src p = (c_ver c, snd (p_src p))) by (rewrite <- Qs1; destruct (p_src p); reflexivity).
  assert (Xd : p_dst p = (c_ver c, snd (p_dst p))) by (rewrite <- Qd1; destruct (p_dst p); reflexivity).
  destruct src as [src|].
  2:{ apply ok_inj in H. apply (Dead [] (eq_sym H)); [intros line act []|].
      intros (_ & _ & _ & X & _). rewrite Xs in X. exact (Ss _ X). }
  destruct (cisco_addresses c (t_destination_address t) (t_destination_address_exclude t)) as [dst|e] eqn:Ed; [|discriminate H].
  cbn [bind] in H. pose proof (cisco_addresses_spec c _ _ dst Kd' Kt1 Kt2 Kt3 Ed) as Sd.
  destruct dst as [dst|].
  2:{ apply ok_inj in H. apply (Dead [] (eq_sym H)); [intros line act []|].
      intros (_ & _ & _ & _ & _ & X & _). rewrite Xd in X. exact (Sd _ X). }
  destruct Ss as (Os & Ms). destruct Sd as (Od & Md). clear Dead.
  (* options *)
  set (est := (existsb (is_num 6) pcol || existsb (is_name "tcp") pcol)
              && (str_in "tcp-established" (t_option t) || str_in "established" (t_option t))).
  set (frag := existsb (is_name "ip") pcol && (str_in "fragments" (t_option t) || str_in "is-fragment" (t_option t))).
  destruct (cisco_options c t pcol) as [[opts action]|e] eqn:Eo; [|discriminate H]. cbn [bind] in H.
  assert (Eo' : opts = (if est then ["established"] else []) ++ (if frag then ["fragments"] else [])
                       ++ (if some (t_logging t) then ["log"] else []) ++ map (append "dscp ") (t_dscp_match t)
                /\ (List.length (t_dscp_match t) <= 1)%nat /\ action = Some (verdict a)).
  { unfold cisco_options in Eo. rewrite Ea in Eo. cbn [some negb] in Eo. rewrite andb_false_r in Eo. cbn [andb bind] in Eo.
    fold est frag in Eo.
    assert (Av : match assoc a cisco_actions with Some s => s | None => "" end = verdict a).
    { destruct Ka as (a' & r' & E' & I'). rewrite Ea in E'. injection E' as <- <-.
      simpl in I'. destruct I' as [<-|[<-|[<-|[<-|[]]]]]; reflexivity. }
    rewrite Av in Eo. destruct (t_dscp_match t) as [|d [|d2 ds]]; [| |discriminate Eo].
    - apply ok_inj in Eo. apply pair_equal_spec in Eo. destruct Eo as (<- & <-). cbn [map List.length]. rewrite app_nil_r.
      rewrite app_assoc. auto.
    - apply ok_inj in Eo. apply pair_equal_spec in Eo. destruct Eo as (<- & <-). cbn [map List.length].
      rewrite !app_assoc. auto. }
  clear Eo. destruct Eo' as (Eo & Ld & ->).
  (* ICMP types *)
  assert (Tc : exists col, (forall ty n, In ty col -> ty = Some n -> 0 <= n) /\
     (t_icmp_type t <> [] -> forall ty, In ty col -> ty <> None) /\
     ((exists ty, In ty col /\ type_says (c_ver c) ty p) <-> any_or (t_icmp_type t) (eq (p_icmp_type p))) /\
     (if some (t_icmp_type t)
      then let! r := normalize_icmp_types (t_icmp_type t) (t_protocol t) (AfNum (c_af c)) in
           Ok (match r with Some l => map Some l | None => [None] end)
      else Ok [None]) = Ok col).
  { destruct (some (t_icmp_type t)) eqn:S1.
    - destruct (normalize_icmp_types (t_icmp_type t) (t_protocol t) (AfNum (c_af c))) as [r|e] eqn:En; [|discriminate H].
      assert (Nt : t_icmp_type t <> []) by (intros E; rewrite E in S1; discriminate S1).
      destruct (types_column c t r p Kaf Nt En) as (T1 & T2 & T3). eexists. split; [exact T1|]. split; [intros _; exact T2|].
      split; [exact T3|reflexivity].
    - assert (Et : t_icmp_type t = []) by (destruct (t_icmp_type t); [reflexivity|discriminate S1]). rewrite Et.
      exists [None]. split; [intros ty n [<-|[]]; discriminate|]. split; [congruence|]. split; [|reflexivity].
      split; [left; reflexivity|]. intros _. exists None. split; [left; reflexivity|exact I]. }
  destruct Tc as (types & T1 & T2 & T3 & Etc). rewrite Etc in H. cbn [bind] in H. clear Etc.
  destruct Kc as (Kc1 & Kc2).
  destruct (codes_column (t_icmp_code t) p Kc1) as (C1 & C2). set (codes := if some (t_icmp_code t) then _ else _) in *.
  destruct (mapM get_ip_string src) as [sas|e] eqn:Esa; [|discriminate H]. cbn [bind] in H.
  destruct (mapM get_ip_string dst) as [das|e] eqn:Eda; [|discriminate H]. cbn [bind] in H.
  apply ok_inj in H.
  destruct (mapM_in2 _ _ _ Esa) as (S1 & S2). destruct (mapM_in2 _ _ _ Eda) as (D1 & D2).
  destruct (cisco_ports_spec (t_source_port t)) as (Ps1 & Ps2); [intros r I; apply Kpo, in_or_app; auto|].
  destruct (cisco_ports_spec (t_destination_port t)) as (Pd1 & Pd2); [intros r I; apply Kpo, in_or_app; auto|].
  (* protocol column *)
  assert (Pc : forall q, In q pcol -> split_ws (proto_text (nx_entry c q)) = [proto_text (nx_entry c q)]).
  { intros q I. unfold pcol in I. rewrite cisco_protocols_shape in I. destruct (t_protocol t) as [|q0 qs] eqn:Eq.
    - destruct I as [<-|[]]. unfold nx_entry. destruct (c_af c =? 6) eqn:A6.
      + destruct (String.eqb (c_platform c) "cisconx"); reflexivity.
      + rewrite andb_false_r. cbn [andb]. destruct (String.eqb (c_platform c) "ciscoxr"); reflexivity.
    - rewrite <- Eq in *. destruct (list_str_eqb (t_protocol t) ["hopopt"]).
      + destruct I as [<-|[]]. unfold nx_entry. change (is_name "icmpv6" (Some (PName "hbh"))) with false.
        rewrite andb_false_r. reflexivity.
      + apply in_map_iff in I. destruct I as (q' & <- & I).
        destruct (Kp q' I) as (Kp1 & Kp2).
        apply (column_says c q' p Kaf Kp1 Kp2); [intros X ->; exact (K6 X I)|intros X; exact (Nic X q' I)|intros X; exact (Nic6 X q' I)]. }
  assert (Pm : (exists q, In q pcol /\ protocol_says (c_ver c) (proto_text (nx_entry c q)) p) <-> any_or (t_protocol t) (eq (p_proto p))).
  { unfold pcol. rewrite cisco_protocols_shape. destruct (t_protocol t) as [|q0 qs] eqn:Eq.
    - split; [left; reflexivity|]. intros _. eexists. split; [left; reflexivity|].
      unfold nx_entry, c_ver. destruct (c_af c =? 6) eqn:A6.
      + destruct (String.eqb (c_platform c) "cisconx"); left; reflexivity.
      + rewrite andb_false_r. cbn [andb]. destruct (String.eqb (c_platform c) "ciscoxr"); [right; left; reflexivity|left; reflexivity].
    - rewrite <- Eq in *. destruct (list_str_eqb (t_protocol t) ["hopopt"]) eqn:Eh.
      + apply list_str_eqb_iff in Eh. rewrite Eh. unfold any_or.
        assert (X : protocol_says (c_ver c) (proto_text (nx_entry c (Some (PName "hbh")))) p <-> p_proto p = "hopopt").
        { unfold nx_entry. change (is_name "icmpv6" (Some (PName "hbh"))) with false. rewrite andb_false_r. reflexivity. }
        split.
        * intros (q & [<-|[]] & S). right. exists "hopopt". split; [left; reflexivity|]. apply X, S.
        * intros [E|(q & [<-|[]] & E)]; [discriminate E|]. eexists. split; [left; reflexivity|]. apply X, E.
      + unfold any_or.
        assert (X : forall q', In q' (t_protocol t) ->
          (protocol_says (c_ver c) (proto_text (nx_entry c (column_entry c (named_pval q')))) p <-> p_proto p = q')).
        { intros q' I. destruct (Kp q' I) as (Kp1 & Kp2).
          apply (column_says c q' p Kaf Kp1 Kp2); [intros X ->; exact (K6 X I)|intros X; exact (Nic X q' I)|intros X; exact (Nic6 X q' I)]. }
        split.
        * intros (q & I & S). right. apply in_map_iff in I. destruct I as (q' & <- & I). exists q'. split; [exact I|]. apply X; assumption.
        * intros [E|(q' & I & E)]; [rewrite E in Eq; discriminate Eq|]. eexists. split; [apply in_map_iff; exists q'; split; [reflexivity|exact I]|].
          apply X; [exact I|exact E]. }
  (* options *)
  assert (Est : est = true -> t_protocol t <> [] /\ forall q, In q (t_protocol t) -> q = "tcp").
  { intros X. apply andb_true_iff in X. destruct X as (_ & X). apply orb_true_iff in X.
    destruct X as [X|X]; apply str_in_iff in X; destruct (Kopt _ X) as [(_ & Y)|(Y & _)]; try exact Y;
      simpl in Y; destruct Y as [Y|[Y|[]]]; discriminate Y. }
  assert (Fo : forall q, In q pcol -> fix_options q opts = opts).
  { intros q I. unfold fix_options. destruct ((is_num 17 q || is_name "udp" q) && str_in "established" opts) eqn:E; [|reflexivity].
    exfalso. apply andb_true_iff in E. destruct E as (E1 & E2). apply str_in_iff in E2. rewrite Eo in E2.
    assert (Et : est = true).
    { destruct est; [reflexivity|]. exfalso. cbn [app] in E2. apply in_app_or in E2.
      destruct E2 as [E2|E2]; [destruct frag; [destruct E2 as [E2|[]]; discriminate E2|destruct E2]|].
      apply in_app_or in E2. destruct E2 as [E2|E2]; [destruct (some (t_logging t)); [destruct E2 as [E2|[]]; discriminate E2|destruct E2]|].
      apply in_map_iff in E2. destruct E2 as (d & E2 & _). discriminate E2. }
    destruct (Est Et) as (Np & Tp). unfold pcol in I. rewrite cisco_protocols_shape in I.
    destruct (t_protocol t) as [|q0 qs]; [congruence|].
    pose proof (Tp q0 (or_introl eq_refl)) as ->. 
    destruct (list_str_eqb ("tcp" :: qs) ["hopopt"]) eqn:Eh; [apply list_str_eqb_iff in Eh; discriminate Eh|].
    apply in_map_iff in I. destruct I as (q' & <- & I). rewrite (Tp q' I) in E1. unfold column_entry, named_pval in E1.
    destruct (c_proto_int c); vm_compute in E1; discriminate E1. }
  assert (Ot : Forall opt_text opts).
  { rewrite Eo. apply Forall_forall. intros o I. unfold opt_text. apply in_app_or in I. destruct I as [I|I].
    { destruct est; [destruct I as [<-|[]]; auto|destruct I]. }
    apply in_app_or in I. destruct I as [I|I]; [destruct frag; [destruct I as [<-|[]]; auto|destruct I]|].
    apply in_app_or in I. destruct I as [I|I]; [destruct (some (t_logging t)); [destruct I as [<-|[]]; auto|destruct I]|].
    apply in_map_iff in I. destruct I as (d & <- & I). right. right. right. exists d. auto. }
  assert (Om : (forall o, In o opts -> opt_says o p) <->
               (forall o, In o (t_option t) -> p_option p o) /\ any_or (t_dscp_match t) (eq (p_dscp p))).
  { split.
    - intros O. split.
      + intros o I. destruct (Kopt o I) as [(J & Np & Tp)|(J & Np & A4 & Nx)].
        * assert (Et : est = true).
          { unfold est. apply andb_true_iff. split.
            - apply orb_true_iff. right. apply existsb_exists. unfold pcol. rewrite cisco_protocols_shape.
              destruct (t_protocol t) as [|q0 qs]; [congruence|]. pose proof (Tp q0 (or_introl eq_refl)) as ->.
              destruct (list_str_eqb ("tcp" :: qs) ["hopopt"]) eqn:Eh; [apply list_str_eqb_iff in Eh; discriminate Eh|].
              exists (Some (PName "tcp")). split; [|reflexivity]. left. unfold column_entry. destruct (c_proto_int c); reflexivity.
            - apply orb_true_iff. destruct J as [<-|[<-|[]]]; [right|left]; apply str_in_iff, I. }
          assert (pe : p_option p "established").
          { apply (O "established"); [|reflexivity]. rewrite Eo, Et. left. reflexivity. }
          destruct J as [<-|[<-|[]]]; [exact pe|apply Qe, pe].
        * assert (Et : frag = true).
          { unfold frag. apply andb_true_iff. split.
            - apply existsb_exists. unfold pcol. rewrite cisco_protocols_shape, Np, A4.
              rewrite (proj2 (String.eqb_neq _ _) Nx). eexists. split; [left; reflexivity|reflexivity].
            - apply orb_true_iff. destruct J as [<-|[<-|[]]]; [left|right]; apply str_in_iff, I. }
          assert (pe : p_option p "fragments").
          { apply (O "fragments"); [|reflexivity]. rewrite Eo, Et. apply in_or_app. right. left. reflexivity. }
          destruct J as [<-|[<-|[]]]; [exact pe|apply Qf, pe].
      + destruct (t_dscp_match t) as [|d ds] eqn:Eds; [left; reflexivity|]. right. exists d. split; [left; reflexivity|].
        apply (O (append "dscp " d)); [|reflexivity]. rewrite Eo. apply in_or_app. right. apply in_or_app. right. apply in_or_app. right.
        left. reflexivity.
    - intros (O & Dm) o I. rewrite Eo in I. apply in_app_or in I. destruct I as [I|I].
      { destruct est eqn:Et; [|destruct I]. destruct I as [<-|[]]. split; [|split; [discriminate|intros d X; discriminate X]].
        intros _. unfold est in Et. apply andb_true_iff in Et. destruct Et as (_ & Et). apply orb_true_iff in Et.
        destruct Et as [Et|Et]; apply str_in_iff in Et; apply O in Et; [apply Qe, Et|exact Et]. }
      apply in_app_or in I. destruct I as [I|I].
      { destruct frag eqn:Et; [|destruct I]. destruct I as [<-|[]]. split; [discriminate|split; [|intros d X; discriminate X]].
        intros _. unfold frag in Et. apply andb_true_iff in Et. destruct Et as (_ & Et). apply orb_true_iff in Et.
        destruct Et as [Et|Et]; apply str_in_iff in Et; apply O in Et; [exact Et|apply Qf, Et]. }
      apply in_app_or in I. destruct I as [I|I].
      { destruct (some (t_logging t)); [|destruct I]. destruct I as [<-|[]].
        split; [discriminate|split; [discriminate|intros d X; discriminate X]]. }
      apply in_map_iff in I. destruct I as (d & <- & I). split; [discriminate|split; [discriminate|]].
      intros d' X. injection X as <-. destruct Dm as [E|(d2 & I2 & E)]; [rewrite E in I; destruct I|].
      destruct (t_dscp_match t) as [|d1 [|d3 ds]]; [destruct I| |simpl in Ld; lia].
      destruct I as [<-|[]]. destruct I2 as [<-|[]]. exact E. }
  assert (Va : In (verdict a) ["permit"; "deny"]).
  { unfold verdict. destruct (String.eqb a "accept"); simpl; auto. }
  (* one line *)
  assert (Line : forall sa da sas' das' sp dp q ty co act, In sa src -> get_ip_string sa = Ok sas' -> In da dst -> get_ip_string da = Ok das' ->
     In sp (cisco_ports (t_source_port t)) -> In dp (cisco_ports (t_destination_port t)) -> In q pcol -> In ty types -> In co codes ->
     (line_matches (c_ver c) act (termlet (verdict a) (proto_text (nx_entry c q)) sas' (format_port sp) das' (format_port dp) ty co (fix_options q opts)) p <->
      act = verdict a /\ protocol_says (c_ver c) (proto_text (nx_entry c q)) p /\ caddr_covers (c_ver c) sa (snd (p_src p)) /\
      oport_covers sp (p_sport p) /\ caddr_covers (c_ver c) da (snd (p_dst p)) /\ oport_covers dp (p_dport p) /\
      type_says (c_ver c) ty p /\ code_says co p /\ forall o, In o opts -> opt_says o p)).
  { intros sa da sas' das' sp dp q ty co act Isa Esa' Ida Eda' Isp Idp Iq Ity Ico. rewrite (Fo q Iq).
    rewrite Forall_forall in Os, Od, Ps1, Pd1.
    apply ace_line; [|assumption|assumption]. constructor; auto.
    - intros n E. exact (T1 ty n Ity E).
    - intros n E. exact (C1 co n Ico E).
    - intros E. subst ty. destruct (t_icmp_type t) as [|x xs] eqn:Ety; [|exfalso; exact (T2 ltac:(discriminate) None Ity eq_refl)].
      unfold codes in Ico. destruct (t_icmp_code t) as [|k ks]; [destruct Ico as [<-|[]]; reflexivity|].
      exfalso. apply Kc2; [discriminate|reflexivity]. }
  split.
  - subst lines. split.
    + intros (line & I & M). apply in_app_or in I. destruct I as [I|I].
      { exfalso. eapply remarks_no_rule; [exact I|exact M]. }
      apply cisco_lines_in in I. destruct I as (sas' & das' & sp & dp & q & ty & co & I1 & I2 & I3 & I4 & I5 & I6 & I7 & ->).
      destruct (S1 _ I1) as (sa & Isa & Esa'). destruct (D1 _ I2) as (da & Ida & Eda').
      apply (Line sa da) in M; auto. destruct M as (_ & M1 & M2 & M3 & M4 & M5 & M6 & M7 & M8).
      split; [exact P1|]. split; [exact P2|]. split; [apply Pm; eauto|].
      split; [rewrite Xs; apply Ms; eauto|]. split; [apply Ps2; eauto|]. split; [rewrite Xd; apply Md; eauto|].
      split; [apply Pd2; eauto|]. split; [apply T3; eauto|]. split; [apply C2; eauto|]. apply Om, M8.
    + intros (_ & _ & B & A1 & B1 & A2 & B2 & E1 & E2 & O). apply Pm in B. destruct B as (q & Iq & B).
      rewrite Xs in A1. apply (Ms _ Qs2) in A1. destruct A1 as (sa & Isa & A1). rewrite Xd in A2. apply (Md _ Qd2) in A2. destruct A2 as (da & Ida & A2).
      apply Ps2 in B1. destruct B1 as (sp & Isp & B1). apply Pd2 in B2. destruct B2 as (dp & Idp & B2).
      apply T3 in E1. destruct E1 as (ty & Ity & E1). apply C2 in E2. destruct E2 as (co & Ico & E2). pose proof (proj2 Om O) as O2.
      destruct (S2 sa Isa) as (sas' & Isas & Esas). destruct (D2 da Ida) as (das' & Idas & Edas).
      eexists. split.
      * apply in_or_app. right. apply cisco_lines_in. exists sas', das', sp, dp, q, ty, co. auto 10.
      * apply (Line sa da); auto 15.
  - subst lines. intros line act I M. apply in_app_or in I. destruct I as [I|I].
    { exfalso. eapply remarks_no_rule; [exact I|exact M]. }
    apply cisco_lines_in in I. destruct I as (sas' & das' & sp & dp & q & ty & co & I1 & I2 & I3 & I4 & I5 & I6 & I7 & ->).
    destruct (S1 _ I1) as (sa & Isa & Esa'). destruct (D1 _ I2) as (da & Ida & Eda').
    apply (Line sa da) in M; auto. apply M.
Qed.
