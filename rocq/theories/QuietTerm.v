(** Terms with the default keywords only (aclgenerator.py:329-380): what is left of matching. *)
From Coq Require Import Lia ZifyBool ZifyNat Permutation.
From Verif Require Import SpecGce BaseFacts IPFacts PolicyProofs GenProofs GenProofs2 GceProofs GceDecide.
Local Open Scope string_scope.
Local Open Scope list_scope.
Local Open Scope Z_scope.

Record quiet (platform : string) (t : term) : Prop := {
  qt_address : t_address t = [] /\ t_address_exclude t = [];
  qt_ports : t_port t = [];
  qt_except : t_protocol_except t = [];
  qt_prefix : t_source_prefix t = [] /\ t_source_prefix_except t = [] /\ t_destination_prefix t = [] /\ t_destination_prefix_except t = [];
  qt_tags : t_source_tag t = [] /\ t_destination_tag t = [];
  qt_options : t_precedence t = [] /\ t_forwarding_class t = [] /\ t_forwarding_class_except t = [];
  qt_numbers : (forall n, text_range (t_fragment_offset t) n) /\ (forall n, text_range (t_hop_limit t) n) /\
    (forall n, text_range (t_packet_length t) n) /\ t_ttl t = None;
  qt_icmp : t_icmp_code t = [];
  qt_place : meant_for platform t /\ t_source_zone t = [] /\ t_destination_zone t = [];
  qt_link : t_ether_type t = [] /\ t_traffic_type t = [] /\ t_dscp_match t = [] /\ t_dscp_except t = [] /\
    t_source_interface t = None /\ t_destination_interface t = None /\ t_restrict_address_family t = None }.
Lemma quiet_matches platform t p : quiet platform t -> p_platform p = platform ->
  term_matches t p <-> side_matches (t_source_address t) (t_source_address_exclude t) (p_src p) /\
    side_matches (t_destination_address t) (t_destination_address_exclude t) (p_dst p) /\
    any_or (t_protocol t) (eq (p_proto p)) /\ ports_match (t_source_port t) (p_sport p) /\ ports_match (t_destination_port t) (p_dport p) /\
    (forall o, In o (t_option t) -> p_option p o) /\ any_or (t_icmp_type t) (eq (p_icmp_type p)).
Proof.
  intros [[B1 B2] B3 B5 (B6 & B7 & B8 & B9) [B11 B11'] (B10 & B12 & B13) (B14 & B15 & B16 & B17) B19 ((B20 & B21) & B22 & B23) (B24 & B25 & B26 & B27 & B28 & B29 & B30)] Pl.
  unfold term_matches, addresses_match, protocols_match, all_ports_match, prefixes_match, options_match, numbers_match, icmp_match, place_matches, link_matches.
  rewrite B1, B2, B3, B5, B6, B7, B8, B9, B10, B11, B11', B12, B13, B17, B19, B22, B23, B24, B25, B26, B27, B28, B29, B30, Pl. split.
  - intros ((_ & A1 & A2) & (A3 & _) & (_ & A5 & A4) & _ & (_ & A6 & _) & _ & (A7 & _) & _). auto 10.
  - intros (A1 & A2 & A3 & A4 & A5 & A6 & A7).
    assert (N : forall (P : string -> Prop), any_or [] P) by (left; reflexivity).
    split; [split; [left; auto|auto]|]. split; [split; [exact A3|apply none_nil]|]. split; [split; [left; left; reflexivity|split; [exact A4|exact A5]]|].
    split. { split; [apply N|]. split; [apply none_nil|]. split; [apply N|]. split; [apply none_nil|]. auto. }
    split. { split; [apply N|]. split; [exact A6|]. split; [apply N|apply none_nil]. }
    split. { split; [apply B14|]. split; [apply B15|]. split; [apply B16|exact Logic.I]. }
    split. { split; [exact A7|left; reflexivity]. }
    split. { split; [destruct B20 as [->|I]; [apply N|right; eexists; split; [exact I|reflexivity]]|]. split; [intros a I E; subst a; exact (B21 I)|]. split; apply N. }
    split; [apply N|]. split; [apply N|]. split; [apply N|]. split; [apply none_nil|]. split; [exact Logic.I|]. split; exact Logic.I.
Qed.
Lemma accepted_quiet_owner platform k filters ps ts t :
  (forall s, str_in s ("owner" :: supported default_tokens) = false -> str_in s (supported k) = false) ->
  check_tokens platform k filters = Ok tt -> In (ps, ts) filters -> In platform ps -> In t ts -> meant_for platform t ->
  t_restrict_address_family t = None -> t_source_tag t = [] -> t_destination_tag t = [] -> t_ttl t <> Some 0 ->
  t_source_interface t <> Some "" -> t_destination_interface t <> Some "" -> quiet platform t.
Proof.
  intros D H I1 I2 I3 M E1 E2 E3 E4 E8 E9.
  pose proof (unsupported_not_set platform k filters ps ts t H I1 I2 I3 M) as U.
  assert (N : forall s, str_in s ("owner" :: supported default_tokens) = false -> ~ In s (supported k)) by (intros s E X; apply D in E; apply str_in_spec in X; congruence).
  destruct U as (U1 & U2 & _ & _ & _ & _ & U3 & _ & _ & _ & U4 & _ & U5 & U6 & U7 & U8 & U9 & U10 & U11 & U12 & U13 & U14 & U15 & U16 & U17 & U18 & U19 & U20 & U21 & U22 & U23 & U24 & U25).
  assert (O : forall {A} (o : option A) x, o = None \/ o = Some x -> o <> Some x -> o = None) by (intros A o x [X|X] Y; [exact X|contradiction]).
  assert (T : forall o, o = None \/ o = Some "" -> forall n, text_range o n) by (intros o [->| ->] n; [exact Logic.I|left; reflexivity]).
  constructor.
  - split; [apply U1|apply U2]; apply N; reflexivity.
  - apply U3, N; reflexivity.
  - apply U4, N; reflexivity.
  - split; [apply U5, N; reflexivity|]. split; [apply U6, N; reflexivity|]. split; [apply U7, N; reflexivity|apply U8, N; reflexivity].
  - auto.
  - split; [apply U9, N; reflexivity|]. split; [apply U10, N; reflexivity|apply U11, N; reflexivity].
  - split; [apply T, U21, N; reflexivity|]. split; [apply T, U22, N; reflexivity|].
    split; [apply T, U23, N; reflexivity|]. exact (O _ _ _ (U20 (N "ttl" eq_refl)) E4).
  - apply U13, N; reflexivity.
  - split; [exact M|]. split; [apply U18|apply U19]; apply N; reflexivity.
  - split; [apply U14, N; reflexivity|]. split; [apply U15, N; reflexivity|]. split; [apply U16, N; reflexivity|]. split; [apply U17, N; reflexivity|].
    split; [exact (O _ _ _ (U24 (N "source_interface" eq_refl)) E8)|]. split; [exact (O _ _ _ (U25 (N "destination_interface" eq_refl)) E9)|exact E1].
Qed.

Lemma accepted_quiet platform k filters ps ts t :
  (forall s, str_in s (supported default_tokens) = false -> str_in s (supported k) = false) ->
  check_tokens platform k filters = Ok tt -> In (ps, ts) filters -> In platform ps -> In t ts -> meant_for platform t ->
  t_restrict_address_family t = None -> t_source_tag t = [] -> t_destination_tag t = [] -> t_ttl t <> Some 0 ->
  t_source_interface t <> Some "" -> t_destination_interface t <> Some "" -> quiet platform t.
Proof.
  intros D. apply accepted_quiet_owner. intros s E. apply D. destruct (str_in s (supported default_tokens)) eqn:X; [|reflexivity].
  apply str_in_spec in X. assert (Y : In s ("owner" :: supported default_tokens)) by (right; exact X). apply str_in_spec in Y. congruence.
Qed.
