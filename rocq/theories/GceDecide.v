(** Proofs about the Google Compute Engine generator: rules in order of priority decide as
    terms in the order of the policy. *)
From Coq Require Import Lia ZifyBool ZifyNat Permutation.
From Verif Require Import SpecGce BaseFacts PyStrFacts IPFacts CollapseProofs ExcludeProofs PolicyProofs GenProofs GenProofs2 TextProofs CiscoProofs GceProofs GceRules GcePolicy.
Local Open Scope string_scope.
Local Open Scope list_scope.
Local Open Scope Z_scope.

(** ** Priorities against order *)
Section Ranks.
  Context {A : Type} (items : list A) (matched : A -> Prop) (prio : A -> Z) (act : A -> string).
  Hypothesis acts : forall x, In x items -> matched x -> act x = "accept" \/ act x = "deny".
  Hypothesis dec : forall x, In x items -> matched x \/ ~ matched x.
  Hypothesis order : forall a x b y c, items = a ++ x :: b ++ y :: c -> matched x -> matched y -> act x <> act y ->
    prio x < prio y \/ (prio x = prio y /\ act x = "deny").
  Definition beats (x y : A) : Prop := prio x < prio y \/ (prio x = prio y /\ (act x = "deny" \/ act y = "accept")).
  Lemma first_or_none_ : (exists a x b, items = a ++ x :: b /\ matched x /\ forall y, In y a -> ~ matched y) \/ (forall x, In x items -> ~ matched x).
  Proof.
    clear order acts. revert dec. induction items as [|x l IH]; intros D; [right; intros x []|].
    destruct (D x (or_introl eq_refl)) as [M|M].
    - left. exists [], x, l. split; [reflexivity|]. split; [exact M|intros y []].
    - destruct (IH (fun y Y => D y (or_intror Y))) as [(a & y & b & -> & My & N)|N].
      + left. exists (x :: a), y, b. split; [reflexivity|]. split; [exact My|]. intros z [<-|Z]; [exact M|exact (N z Z)].
      + right. intros y [<-|Y]; [exact M|exact (N y Y)].
  Qed.
  Lemma best_exists_ : forall l, incl l items -> (exists x, In x l /\ matched x) ->
    exists x, In x l /\ matched x /\ forall y, In y l -> matched y -> beats x y.
  Proof.
    induction l as [|x l IH]; intros I (z & Z & M); [destruct Z|].
    assert (Il : incl l items) by (intros y Y; apply I; right; exact Y).
    assert (B : forall y, In y (x :: l) -> matched y -> act y = "accept" \/ act y = "deny") by (intros y Y My; apply acts; [apply I, Y|exact My]).
    assert (Rf : forall y, In y (x :: l) -> matched y -> beats y y).
    { intros y Y My. right. split; [reflexivity|]. destruct (B y Y My) as [E|E]; rewrite E; auto. }
    assert (D : forall l', incl l' items -> (exists y, In y l' /\ matched y) \/ (forall y, In y l' -> ~ matched y)).
    { clear -dec. induction l' as [|y l' IH]; intros I; [right; intros y []|].
      destruct (dec y (I y (or_introl eq_refl))) as [M|M]; [left; exists y; split; [left; reflexivity|exact M]|].
      destruct IH as [(w & W & Mw)|N]; [intros w W; apply I; right; exact W|left; exists w; split; [right; exact W|exact Mw]|].
      right. intros w [<-|W]; [exact M|exact (N w W)]. }
    destruct (D l Il) as [E|N].
    - destruct (IH Il E) as (b & Bi & Bm & Bb). destruct (dec x (I x (or_introl eq_refl))) as [Mx|Mx].
      + assert (C : beats x b \/ beats b x).
        { unfold beats. destruct (Z.lt_total (prio x) (prio b)) as [L|[L|L]]; [auto| |auto].
          destruct (B x (or_introl eq_refl) Mx) as [X|X]; destruct (B b (or_intror Bi) Bm) as [Y|Y]; rewrite X, Y; auto. }
        destruct C as [C|C].
        * exists x. split; [left; reflexivity|]. split; [exact Mx|]. intros y [<-|Y] My; [apply Rf; [left; reflexivity|exact Mx]|].
          specialize (Bb y Y My). unfold beats in *. destruct C as [C|[C C']], Bb as [Q|[Q Q']]; try (left; lia).
          right. split; [lia|]. destruct C' as [C'|C']; [auto|]. destruct Q' as [Q'|Q']; [congruence|auto].
        * exists b. split; [right; exact Bi|]. split; [exact Bm|]. intros y [<-|Y] My; [exact C|exact (Bb y Y My)].
      + exists b. split; [right; exact Bi|]. split; [exact Bm|]. intros y [<-|Y] My; [contradiction|exact (Bb y Y My)].
    - exists x. destruct Z as [<-|Z]; [|exfalso; exact (N z Z M)]. split; [left; reflexivity|]. split; [exact M|].
      intros y [<-|Y] My; [apply Rf; [left; reflexivity|exact M]|exfalso; exact (N y Y My)].
  Qed.
  (* the best one asks for what the first one asks for *)
  Lemma best_is_first_ a x b y : items = a ++ x :: b -> matched x -> (forall z, In z a -> ~ matched z) ->
    In y items -> matched y -> (forall z, In z items -> matched z -> beats y z) -> act y = act x.
  Proof.
    intros E Mx N Y My B. rewrite E in Y. apply in_app_or in Y. destruct Y as [Y|[<-|Y]]; [exfalso; exact (N y Y My)|reflexivity|].
    apply in_split in Y. destruct Y as (b1 & b2 & ->).
    destruct (string_dec (act y) (act x)) as [Q|Q]; [exact Q|exfalso].
    specialize (order a x b1 y b2 E Mx My (fun Z => Q (eq_sym Z))).
    assert (Ix : In x items) by (rewrite E; apply in_or_app; right; left; reflexivity).
    assert (Iy : In y items) by (rewrite E; apply in_or_app; right; right; apply in_or_app; right; left; reflexivity).
    destruct (B x Ix Mx) as [L|[L L']]; [lia|]. destruct order as [O|[O O']]; [lia|].
    destruct L' as [L'|L']; [congruence|]. congruence.
  Qed.

  Variables (rules : list rule_dict) (network direction : string) (p : packet).
  Hypothesis sound : forall r w, In r rules -> in_network network r -> rule_says direction r p w ->
    exists x, In x items /\ matched x /\ act x = w /\ rule_priority r = Some (prio x).
  Hypothesis complete : forall x, In x items -> matched x ->
    exists r, In r rules /\ in_network network r /\ rule_says direction r p (act x) /\ rule_priority r = Some (prio x).
  Definition ordered_decides (v : string) : Prop :=
    first_says (fun x w => matched x /\ act x = w) items v \/ ((forall x, In x items -> ~ matched x) /\ v = implied direction).
  Lemma ordered_firewall_ v : ordered_decides v -> firewall_decides rules network direction p v.
  Proof.
    intros H. destruct first_or_none_ as [(a & x & b & E & M & N)|N].
    - assert (Ev : v = act x).
      { destruct H as [(a' & x' & b' & E' & [M' W'] & N')|[N' _]].
        - rewrite E in E'. destruct (Nat.lt_trichotomy (List.length a') (List.length a)) as [L|[L|L]].
          + exfalso. apply (N x'); [|exact M']. apply (f_equal (fun l => nth_error l (List.length a'))) in E'.
            rewrite nth_error_app1, nth_error_app2, Nat.sub_diag in E' by lia. cbn in E'. exact (nth_error_In _ _ E').
          + apply (f_equal (fun l => nth_error l (List.length a'))) in E'.
            rewrite !nth_error_app2, L, !Nat.sub_diag in E' by lia. cbn in E'. injection E' as <-. auto.
          + symmetry. apply (N' x (act x)); [|auto]. apply (f_equal (fun l => nth_error l (List.length a))) in E'.
            rewrite nth_error_app2, nth_error_app1, Nat.sub_diag in E' by lia. cbn in E'. exact (nth_error_In _ _ (eq_sym E')).
        - exfalso. apply (N' x); [|exact M]. rewrite E. apply in_or_app. right. left. reflexivity. }
      left. destruct (best_exists_ items (incl_refl _)) as (y & Y & My & B).
      { exists x. split; [|exact M]. rewrite E. apply in_or_app. right. left. reflexivity. }
      pose proof (best_is_first_ a x b y E M N Y My B) as Q.
      destruct (complete y Y My) as (r & R1 & R2 & R3 & R4). exists r, (prio y). split; [exact R1|]. split; [exact R2|].
      split; [rewrite Ev, <- Q; exact R3|]. split; [exact R4|].
      intros r' v' n' I' W' S' P'. destruct (sound r' v' I' W' S') as (z & Z & Mz & Az & Pz). rewrite P' in Pz. injection Pz as ->.
      destruct (B z Z Mz) as [L|[L L']]; [left; exact L|right]. split; [exact L|]. rewrite Ev, <- Q, <- Az. exact L'.
    - right. split.
      + intros r w I W S. destruct (sound r w I W S) as (z & Z & Mz & _). exact (N z Z Mz).
      + destruct H as [(a' & x' & b' & E' & [M' _] & _)|[_ H]]; [|exact H]. exfalso. apply (N x'); [|exact M']. rewrite E'. apply in_or_app. right. left. reflexivity.
  Qed.
  Lemma ordered_total_ : exists v, ordered_decides v.
  Proof.
    destruct first_or_none_ as [(a & x & b & E & M & N)|N].
    - exists (act x). left. exists a, x, b. split; [exact E|]. split; [auto|]. intros y w Y [My _]. exfalso. exact (N y Y My).
    - exists (implied direction). right. auto.
  Qed.
  Lemma says_verdict r w : rule_says direction r p w -> w = "accept" \/ w = "deny".
  Proof.
    intros (_ & _ & _ & _ & key & l & e & K & _). unfold verdict_key in K.
    destruct (String.eqb w "accept") eqn:E; [left; apply String.eqb_eq, E|]. destruct (String.eqb w "deny") eqn:E2; [right; apply String.eqb_eq, E2|discriminate K].
  Qed.
  Lemma firewall_unique v w : firewall_decides rules network direction p v -> firewall_decides rules network direction p w -> v = w.
  Proof.
    intros [(r & n & I & W & S & P & B)|[N ->]] [(r' & n' & I' & W' & S' & P' & B')|[N' ->]].
    - specialize (B r' w n' I' W' S' P'). specialize (B' r v n I W S P).
      destruct (says_verdict _ _ S) as [->| ->], (says_verdict _ _ S') as [->| ->]; try reflexivity; exfalso;
        destruct B as [B|[B [B1|B1]]]; destruct B' as [B'|[B' [B1'|B1']]]; try discriminate; lia.
    - exfalso. exact (N' r v I W S).
    - exfalso. exact (N r' w I' W' S').
    - reflexivity.
  Qed.
  Lemma ordered_iff_ v : ordered_decides v <-> firewall_decides rules network direction p v.
  Proof.
    split; [apply ordered_firewall_|]. intros H. destruct ordered_total_ as [w W]. rewrite (firewall_unique v w H (ordered_firewall_ w W)). exact W.
  Qed.
End Ranks.

(** ** Terms: what the rules check is what the term asks for *)
Record bare (t : term) : Prop := {
  br_address : t_address t = [] /\ t_address_exclude t = [];
  br_ports : t_port t = [] /\ t_source_port t = [];
  br_except : t_protocol_except t = [];
  br_prefix : t_source_prefix t = [] /\ t_source_prefix_except t = [] /\ t_destination_prefix t = [] /\ t_destination_prefix_except t = [];
  br_options : t_precedence t = [] /\ t_option t = [] /\ t_forwarding_class t = [] /\ t_forwarding_class_except t = [];
  br_numbers : text_range (t_fragment_offset t) = text_range None /\ text_range (t_hop_limit t) = text_range None /\
    text_range (t_packet_length t) = text_range None /\ t_ttl t = None;
  br_icmp : t_icmp_type t = [] /\ t_icmp_code t = [];
  br_place : meant_for "gce" t /\ t_source_zone t = [] /\ t_destination_zone t = [];
  br_link : t_ether_type t = [] /\ t_traffic_type t = [] /\ t_dscp_match t = [] /\ t_dscp_except t = [] /\
    t_source_interface t = None /\ t_destination_interface t = None /\ t_restrict_address_family t = None }.
Lemma none_nil {A} (P : A -> Prop) : none_of [] P.
Proof. intros a []. Qed.
Lemma bare_matches t p : bare t -> p_platform p = "gce" ->
  term_matches t p <-> side_matches (t_source_address t) (t_source_address_exclude t) (p_src p) /\
    side_matches (t_destination_address t) (t_destination_address_exclude t) (p_dst p) /\
    any_or (t_protocol t) (eq (p_proto p)) /\ ports_match (t_destination_port t) (p_dport p) /\
    any_or (t_source_tag t) (p_src_tag p) /\ any_or (t_destination_tag t) (p_dst_tag p).
Proof.
  intros [[B1 B2] [B3 B4] B5 (B6 & B7 & B8 & B9) (B10 & B11 & B12 & B13) (B14 & B15 & B16 & B17) (B18 & B19) ((B20 & B21) & B22 & B23) (B24 & B25 & B26 & B27 & B28 & B29 & B30)] Pl.
  unfold term_matches, addresses_match, protocols_match, all_ports_match, prefixes_match, options_match, numbers_match, icmp_match, place_matches, link_matches.
  rewrite B1, B2, B3, B4, B5, B6, B7, B8, B9, B10, B11, B12, B13, B14, B15, B16, B17, B18, B19, B22, B23, B24, B25, B26, B27, B28, B29, B30, Pl. split.
  - intros ((_ & A1 & A2) & (A3 & _) & (_ & _ & A4) & (_ & _ & _ & _ & A5 & A6) & _). auto 10.
  - intros (A1 & A2 & A3 & A4 & A5 & A6).
    assert (N : forall (P : string -> Prop), any_or [] P) by (left; reflexivity).
    split; [split; [left; auto|auto]|]. split; [split; [exact A3|apply none_nil]|]. split; [split; [left; left; reflexivity|split; [left; reflexivity|exact A4]]|].
    split. { split; [apply N|]. split; [apply none_nil|]. split; [apply N|]. split; [apply none_nil|]. auto. }
    split. { split; [apply N|]. split; [intros o []|]. split; [apply N|apply none_nil]. }
    split. { split; [exact Logic.I|]. split; [exact Logic.I|]. split; exact Logic.I. }
    split. { split; left; reflexivity. }
    split. { split; [destruct B20 as [B|B]; [left; exact B|right; exists "gce"; auto]|]. split; [intros a I E; subst a; contradiction|]. split; apply N. }
    split; [apply N|]. split; [apply N|]. split; [apply N|]. split; [apply none_nil|]. split; [exact Logic.I|]. split; exact Logic.I.
Qed.
Lemma bare_alternatives dir t : bare t -> forall t', In t' (alternatives dir t) -> bare t'.
Proof.
  intros B t' I. unfold alternatives in I. destruct (_ && _).
  - destruct I as [<-|[<-|[]]].
    + destruct t, B. constructor; assumption.
    + assert (X : bare (set_source_address_exclude [] t)) by (destruct t, B; constructor; assumption).
      revert X. generalize (set_source_address_exclude [] t). intros u [X1 X2 X3 X4 X5 X6 X7 X8 X9]. destruct u. constructor; assumption.
  - destruct I as [<-|[]]. exact B.
Qed.
Lemma stag_fields t : t_source_address (set_source_tag [] t) = t_source_address t /\ t_source_address_exclude (set_source_tag [] t) = t_source_address_exclude t /\
  t_destination_address (set_source_tag [] t) = t_destination_address t /\ t_destination_address_exclude (set_source_tag [] t) = t_destination_address_exclude t /\
  t_protocol (set_source_tag [] t) = t_protocol t /\ t_destination_port (set_source_tag [] t) = t_destination_port t /\
  t_source_tag (set_source_tag [] t) = [] /\ t_destination_tag (set_source_tag [] t) = t_destination_tag t.
Proof. destruct t. repeat split. Qed.
Lemma addr_fields t : let u := set_source_address [] (set_source_address_exclude [] t) in
  t_source_address u = [] /\ t_source_address_exclude u = [] /\ t_destination_address u = t_destination_address t /\
  t_destination_address_exclude u = t_destination_address_exclude t /\
  t_protocol u = t_protocol t /\ t_destination_port u = t_destination_port t /\ t_source_tag u = t_source_tag t /\ t_destination_tag u = t_destination_tag t.
Proof. destruct t. repeat split. Qed.
Lemma match_iff i g p : gce_term_ok i g -> bare (g_term g) -> checked (gi_direction i) (g_term g) -> (gi_direction i = "INGRESS" \/ gi_direction i = "EGRESS") ->
  p_platform p = "gce" -> gce_matches (gi_direction i) (g_term g) p <-> hit0 (gi_direction i) (g_term g) p.
Proof.
  intros G B C Dir Pl. pose proof (gt_exclude _ _ G) as GE. pose proof (gt_protocol _ _ G) as GP. pose proof (proj1 (gt_texts _ _ G)) as GT. clear G.
  revert B C GE GP GT. generalize (g_term g). intros t B C GE GP GT.
  assert (Pr : protos_in t p <-> any_or (t_protocol t) (eq (p_proto p))).
  { unfold protos_in, any_or. split.
    - intros [H|[H|H]]; [left; exact H| |right; eauto]. exfalso. exact (proj2 (GP _ H) eq_refl).
    - intros [H|(a & H & ->)]; auto. }
  assert (De : t_destination_address t = [] -> side_matches (t_destination_address t) (t_destination_address_exclude t) (p_dst p)).
  { intros E. rewrite (GE E), E. split; [left; reflexivity|]. rewrite covered_nil. tauto. }
  assert (Se : t_source_address t = [] -> side_matches (t_source_address t) (t_source_address_exclude t) (p_src p)).
  { intros E. rewrite (ck_sexc _ _ C E), E. split; [left; reflexivity|]. rewrite covered_nil. tauto. }
  assert (Side : forall inc exc x, inc <> [] -> side_matches inc exc x <-> covered inc x /\ ~ covered exc x).
  { intros inc exc x N. unfold side_matches. tauto. }
  assert (Hit : forall l P, l <> [] -> @any_or string l P <-> tag_hit l P).
  { intros l P N. unfold any_or, tag_hit. tauto. }
  unfold gce_matches, hit0, who0. rewrite Pr.
  assert (BA := bare_alternatives (gi_direction i) t B). unfold alternatives in *.
  destruct Dir as [D|D]; rewrite D in *; cbn [String.eqb Ascii.eqb Bool.eqb andb] in *.
  - destruct (ck_in _ _ C eq_refl) as [Dn Sn]. pose proof (De Dn) as De'.
    destruct (some (t_source_address t)) eqn:Es; destruct (some (t_source_tag t)) eqn:Et; cbn [andb] in *.
    + apply some_true in Es, Et. destruct (stag_fields t) as (F1 & F2 & F3 & F4 & F5 & F6 & F7 & F8). destruct (addr_fields t) as (J1 & J2 & J3 & J4 & J5 & J6 & J7 & J8).
      pose proof (bare_matches _ p (BA _ (or_introl eq_refl)) Pl) as M1. pose proof (bare_matches _ p (BA _ (or_intror (or_introl eq_refl))) Pl) as M2.
      rewrite F1, F2, F3, F4, F5, F6, F7, F8 in M1. rewrite J1, J2, J3, J4, J5, J6, J7, J8 in M2. rewrite (Side _ _ _ Es) in M1. rewrite (Hit _ _ Et) in M2.
      assert (S0 : side_matches [] [] (p_src p)) by (split; [left; reflexivity|rewrite covered_nil; tauto]).
      assert (T0 : any_or [] (p_src_tag p)) by (left; reflexivity).
      split.
      * intros (t' & [<-|[<-|[]]] & M); [apply M1 in M|apply M2 in M]; tauto.
      * intros ([W|W] & X & Y & Z); [exists (set_source_tag [] t)|exists (set_source_address [] (set_source_address_exclude [] t))];
          (split; [cbn [In]; auto|]); [apply M1|apply M2]; tauto.
    + apply some_true in Es. apply some_false in Et. pose proof (bare_matches _ p B Pl) as M. rewrite (Side _ _ _ Es) in M.
      assert (T0 : any_or (t_source_tag t) (p_src_tag p)) by (left; exact Et).
      assert (T1 : ~ tag_hit (t_source_tag t) (p_src_tag p)) by (rewrite Et; intros (s & [] & _)).
      split; [intros (t' & [<-|[]] & M'); apply M in M'; tauto|]. intros Q. exists t. split; [left; reflexivity|]. apply M. tauto.
    + apply some_false in Es. apply some_true in Et. pose proof (bare_matches _ p B Pl) as M. rewrite (Hit _ _ Et) in M. pose proof (Se Es) as Se'.
      assert (C0 : ~ covered (t_source_address t) (p_src p)) by (rewrite Es, covered_nil; tauto).
      split; [intros (t' & [<-|[]] & M'); apply M in M'; tauto|]. intros Q. exists t. split; [left; reflexivity|]. apply M. tauto.
    + apply some_false in Es, Et. destruct Sn; contradiction.
  - destruct (ck_out _ _ C eq_refl) as (Sn & Dn & Tn). pose proof (bare_matches _ p B Pl) as M. rewrite (Side _ _ _ Dn) in M. pose proof (Se Sn) as Se'.
    assert (T0 : any_or (t_destination_tag t) (p_dst_tag p)).
    { left. destruct (t_destination_tag t) as [|s l] eqn:E; [reflexivity|]. exfalso. unfold tags_present in Tn. cbn [existsb] in Tn.
      destruct s; [|discriminate Tn]. apply GT, in_or_app. right. left. reflexivity. }
    split; [intros (t' & [<-|[]] & M'); apply M in M'; tauto|]. intros Q. exists t. split; [left; reflexivity|]. apply M. tauto.
Qed.

(** ** From the check of keywords *)
Lemma accepted_bare filters ps ts t : check_tokens "gce" gce_tokens filters = Ok tt -> In (ps, ts) filters -> In "gce" ps -> In t ts -> meant_for "gce" t ->
  t_address_exclude t = [] /\
  (t_option t = [] -> t_source_port t = [] -> t_restrict_address_family t = None -> t_ttl t <> Some 0 ->
   t_packet_length t <> Some "" -> t_hop_limit t <> Some "" -> t_fragment_offset t <> Some "" ->
   t_source_interface t <> Some "" -> t_destination_interface t <> Some "" -> bare t).
Proof.
  intros H I1 I2 I3 M.
  pose proof (unsupported_not_set "gce" gce_tokens filters ps ts t H I1 I2 I3 M) as U.
  assert (N : forall s, str_in s (supported gce_tokens) = false -> ~ In s (supported gce_tokens)) by (intros s E X; apply str_in_spec in X; congruence).
  destruct U as (U1 & U2 & _ & _ & _ & _ & U3 & _ & _ & _ & U4 & _ & U5 & U6 & U7 & U8 & U9 & U10 & U11 & U12 & U13 & U14 & U15 & U16 & U17 & U18 & U19 & U20 & U21 & U22 & U23 & U24 & U25).
  assert (O : forall {A} (o : option A) x, o = None \/ o = Some x -> o <> Some x -> o = None) by (intros A o x [X|X] Y; [exact X|contradiction]).
  split; [apply U2, N; reflexivity|]. intros E1 E2 E3 E4 E5 E6 E7 E8 E9.
  assert (T : forall o, o = None \/ o = Some "" -> o <> Some "" -> text_range o = text_range None) by (intros o X Y; rewrite (O _ _ _ X Y); reflexivity).
  constructor.
  - split; [apply U1|apply U2]; apply N; reflexivity.
  - split; [apply U3, N; reflexivity|exact E2].
  - apply U4, N; reflexivity.
  - split; [apply U5, N; reflexivity|]. split; [apply U6, N; reflexivity|]. split; [apply U7, N; reflexivity|apply U8, N; reflexivity].
  - split; [apply U9, N; reflexivity|]. split; [exact E1|]. split; [apply U10, N; reflexivity|apply U11, N; reflexivity].
  - split; [apply T; [apply U21, N; reflexivity|exact E7]|]. split; [apply T; [apply U22, N; reflexivity|exact E6]|].
    split; [apply T; [apply U23, N; reflexivity|exact E5]|]. exact (O _ _ _ (U20 (N "ttl" eq_refl)) E4).
  - split; [apply U12|apply U13]; apply N; reflexivity.
  - split; [exact M|]. split; [apply U18|apply U19]; apply N; reflexivity.
  - split; [apply U14, N; reflexivity|]. split; [apply U15, N; reflexivity|]. split; [apply U16, N; reflexivity|]. split; [apply U17, N; reflexivity|].
    split; [exact (O _ _ _ (U24 (N "source_interface" eq_refl)) E8)|]. split; [exact (O _ _ _ (U25 (N "destination_interface" eq_refl)) E9)|exact E3].
Qed.
Lemma ok_fit i g : gce_term_ok i g -> t_address_exclude (g_term g) = [] -> fit i (g_term g).
Proof.
  intros G E. destruct G as [G1 G2 G3 G4 G5 G6 G7 G8 [G9 G9'] [G10 G10'] G11 G12]. constructor; try assumption.
  - apply G6.
  - intros q Q. apply G7, Q.
  - apply subtractable_excludable, G9.
  - apply subtractable_excludable, G10.
Qed.

(** ** A last term that denies everything *)
Record nothing_set (t : term) : Prop := {
  ns_src : t_source_address t = [] /\ t_source_address_exclude t = [];
  ns_dst : t_destination_address t = [] /\ t_destination_address_exclude t = [];
  ns_ports : t_source_port t = [] /\ t_destination_port t = [];
  ns_protocol : t_protocol t = [];
  ns_tags : t_source_tag t = [] /\ t_destination_tag t = [];
  ns_option : t_option t = [] }.
Lemma default_deny_fields g : is_default_deny g = true ->
  In "deny" (t_action (g_term g)) /\ g_source_accounts g = [] /\ g_target_accounts g = [] /\ nothing_set (g_term g).
Proof.
  intros H. unfold is_default_deny in H. apply andb_true_iff in H. destruct H as [H _]. apply andb_true_iff in H. destruct H as [H H3].
  apply andb_true_iff in H. destruct H as [H H2]. apply andb_true_iff in H. destruct H as [H0 H1].
  split; [apply str_in_spec, H0|]. apply negb_true_iff, some_false in H2, H3. split; [exact H2|]. split; [exact H3|].
  rewrite forallb_forall in H1.
  assert (K : forall el v, In (el, v) (term_fields (g_term g)) -> str_in el deny_skips = false -> truthy v = false).
  { intros el v I E. specialize (H1 _ I). cbn [fst snd] in H1. rewrite E in H1. apply negb_true_iff in H1. exact H1. }
  clear H0 H1 H2 H3.
  assert (KL : forall el l, In (el, VList l) (term_fields (g_term g)) -> str_in el deny_skips = false -> l = []).
  { intros el l I E. apply some_false. exact (K _ _ I E). }
  assert (KA : forall el A (l : list A), In (el, VAtom (some l)) (term_fields (g_term g)) -> str_in el deny_skips = false -> l = []).
  { intros el A l I E. apply some_false. exact (K _ _ I E). }
  revert KL KA. clear K. unfold term_fields. intros KL KA.
  constructor; repeat split;
    match goal with
    | |- t_source_address _ = _ => apply (KA "source_address") | |- t_source_address_exclude _ = _ => apply (KA "source_address_exclude")
    | |- t_destination_address _ = _ => apply (KA "destination_address") | |- t_destination_address_exclude _ = _ => apply (KA "destination_address_exclude")
    | |- t_source_port _ = _ => apply (KA "source_port") | |- t_destination_port _ = _ => apply (KA "destination_port")
    | |- t_protocol _ = _ => apply (KL "protocol") | |- t_source_tag _ = _ => apply (KL "source_tag") | |- t_destination_tag _ = _ => apply (KL "destination_tag")
    | |- t_option _ = _ => apply (KL "option") end;
    try reflexivity; repeat first [left; reflexivity|right].
Qed.
Lemma fill_fields i g : let t := g_term g in let u := g_term (fill_default_deny i g) in
  t_protocol u = ["all"] /\ t_action u = t_action t /\ t_source_tag u = t_source_tag t /\ t_destination_tag u = t_destination_tag t /\
  t_destination_port u = t_destination_port t /\ t_address_exclude u = t_address_exclude t /\
  t_source_address_exclude u = t_source_address_exclude t /\ t_destination_address_exclude u = t_destination_address_exclude t /\
  t_source_address u = (if String.eqb (gi_direction i) "EGRESS" then t_source_address t else map any_ip (gce_families (gi_af i))) /\
  t_destination_address u = (if String.eqb (gi_direction i) "EGRESS" then map any_ip (gce_families (gi_af i)) else t_destination_address t) /\
  t_expiration u = t_expiration t /\ t_platform u = t_platform t /\ t_platform_exclude u = t_platform_exclude t /\ t_stateless_reply u = t_stateless_reply t.
Proof.
  destruct g as [t pr sa ta]. cbn [g_term fill_default_deny]. unfold fill_default_deny. cbn [g_term].
  destruct (String.eqb (gi_direction i) "EGRESS"); destruct t; repeat split.
Qed.
Lemma any_valid l : valid_list (map any_ip l).
Proof.
  unfold valid_list. apply Forall_forall. intros n I. apply in_map_iff in I. destruct I as (v & <- & _).
  destruct v; (split; [cbn; lia|]); (split; [cbn; lia|]); apply Z.divide_0_r.
Qed.
Lemma any_covers v x : 0 <= x < 2 ^ width v -> covers (any_ip v) (v, x).
Proof. intros H. destruct v; (split; [reflexivity|]); cbn [fst snd any_ip plain naddr]; unfold size; cbn [nver nlen width] in *; cbn -[Z.pow]; cbn [width] in H; lia. Qed.
Lemma any_style v : ~ ipv4_style (naddr (any_ip v)).
Proof. destruct v; cbn; unfold ipv4_style; lia. Qed.
Lemma fill_fit i g : is_default_deny g = true -> t_address_exclude (g_term g) = [] -> (exists a, t_action (g_term g) = [a]) -> fit i (g_term (fill_default_deny i g)).
Proof.
  intros D E A. destruct (default_deny_fields g D) as (_ & _ & _ & [[N1 N2] [N3 N4] [N5 N6] N7 [N8 N9] N10]).
  destruct (fill_fields i g) as (F1 & F2 & F3 & F4 & F5 & F6 & F7 & F8 & F9 & F10 & _).
  assert (V : forall b : bool, valid_list (if b then [] else map any_ip (gce_families (gi_af i))) /\ valid_list (if b then map any_ip (gce_families (gi_af i)) else [])).
  { intros b. destruct b; split; try apply any_valid; constructor. }
  assert (S : forall n, In n (map any_ip (gce_families (gi_af i))) -> ~ ipv4_style (naddr n)) by (intros n I; apply in_map_iff in I; destruct I as (v & <- & _); apply any_style).
  constructor; rewrite ?F1, ?F2, ?F3, ?F4, ?F5, ?F6, ?F7, ?F8, ?F9, ?F10, ?N1, ?N2, ?N3, ?N4, ?N6, ?N8, ?N9.
  - exact A.
  - intros [].
  - intros q [<-|[]]. apply str_in_spec. reflexivity.
  - intros r [].
  - exact E.
  - split; [apply V|]. split; [constructor|left; reflexivity].
  - left. split; [reflexivity|]. intros n I _. destruct (String.eqb _ _); [destruct I|exact (S n I)].
  - split; [apply V|]. split; [constructor|left; reflexivity].
  - left. split; [reflexivity|]. intros n I _. destruct (String.eqb _ _); [exact (S n I)|destruct I].
  - reflexivity.
  - intros _ X. contradiction.
Qed.
Lemma fill_hits i g p : is_default_deny g = true -> (gi_direction i = "INGRESS" \/ gi_direction i = "EGRESS") -> gce_traffic i p ->
  hit0 (gi_direction i) (g_term (fill_default_deny i g)) p.
Proof.
  intros D Dir T. destruct (default_deny_fields g D) as (_ & _ & _ & [[N1 N2] [N3 N4] [N5 N6] N7 [N8 N9] N10]).
  destruct (fill_fields i g) as (F1 & F2 & F3 & F4 & F5 & F6 & F7 & F8 & F9 & F10 & _).
  destruct T as ((v & V & T1 & T2 & T3 & T4 & _) & _).
  assert (C : forall x : ipaddr, fst x = v -> 0 <= snd x < 2 ^ width v -> covered (map any_ip (gce_families (gi_af i))) x /\ ~ covered [] x).
  { intros [f x] <- B. split; [|rewrite covered_nil; tauto]. exists (any_ip f). split; [apply in_map, V|apply any_covers, B]. }
  unfold hit0, who0, protos_in, ports_match. rewrite F1, F3, F4, F5, F7, F8, F9, F10, N2, N4, N6, N8, N9.
  split; [|split; [left; destruct (String.eqb (gi_direction i) "INGRESS"); reflexivity|]].
  - destruct Dir as [E|E]; rewrite E; cbn [String.eqb Ascii.eqb Bool.eqb]; [left; apply C|apply C]; assumption.
  - split; [right; left; left; reflexivity|left; reflexivity].
Qed.

(** ** Rules name the direction and the network of their header *)
Definition keeps (d d' : rule_dict) : Prop := assoc "direction" d' = assoc "direction" d /\ assoc "network" d' = assoc "network" d.
Lemma keeps_refl d : keeps d d. Proof. split; reflexivity. Qed.
Lemma keeps_trans a b c : keeps a b -> keeps b c -> keeps a c.
Proof. intros [A B] [C D]. split; congruence. Qed.
Lemma keeps_set k v d : k <> "direction" -> k <> "network" -> keeps d (jset k v d).
Proof. intros A B. split; rewrite assoc_jset; apply not_eq_sym, String.eqb_neq in A, B; rewrite ?A, ?B; reflexivity. Qed.
Lemma keeps_if (b : bool) d x y : keeps d x -> keeps d y -> keeps d (if b then x else y).
Proof. destruct b; auto. Qed.
Definition of_header (dir network : string) (r : rule_dict) : Prop := assoc "direction" r = Some (JStr dir) /\ in_network network r.
Lemma of_header_keeps dir network d r : of_header dir network d -> keeps d r -> of_header dir network r.
Proof. unfold of_header, in_network. intros [A B] [C D]. split; congruence. Qed.
Lemma term_dict_header dir network m6 comment g t d : term_dict dir network m6 comment g t = Ok d -> of_header dir network d.
Proof.
  intros H. unfold term_dict in H.
  set (d0 := [("description", JStr (slice_to (join " " comment) 2047)); ("name", JStr (t_name t)); ("direction", JStr dir)]) in H.
  set (d1 := if is_empty network then d0 else jset "name" (JStr (append (last_part network) (append "-" (t_name t)))) (jset "network" (JStr network) d0)) in H.
  set (d2 := if m6 then jset "name" (JStr (append (rule_name d1) "-v6")) d1 else d1) in H.
  assert (D2 : of_header dir network d2).
  { apply (of_header_keeps dir network d1).
    - unfold of_header, in_network, d1. destruct (is_empty network); [split; reflexivity|]. split; fields; reflexivity.
    - unfold d2. destruct m6; [apply keeps_set; discriminate|apply keeps_refl]. }
  clearbody d2. clear d1 d0. cbv zeta in H.
  destruct (30 <? _)%nat; [discriminate H|]. destruct (70 <? _)%nat; [discriminate H|]. destruct (_ || _)%bool; [discriminate H|].
  match type of H with (if ?b then _ else _) = _ => destruct b; [discriminate H|] end. apply ok_inj in H. subst d.
  eapply of_header_keeps; [exact D2|].
  repeat match goal with
  | |- keeps _ (match g_priority g with Some _ => _ | None => _ end) => destruct (g_priority g)
  | |- keeps _ (if ?b then _ else _) => apply keeps_if
  | |- keeps _ (jset _ _ _) => eapply keeps_trans; [|apply keeps_set; discriminate]
  end; try apply keeps_refl.
Qed.
Lemma address_rules_keep key l d r : key <> "direction" -> key <> "network" -> In r (address_rules key l d) -> keeps d r.
Proof.
  intros K1 K2 I. unfold address_rules in I. apply chunk_rules_in in I. destruct I as (n & c & _ & ->).
  eapply keeps_trans; [|apply keeps_set; assumption].
  destruct (1 <? _)%nat; [|apply keeps_refl]. destruct (assoc "name" d) as [[s| | | |]|]; try apply keeps_refl. apply keeps_set; discriminate.
Qed.
Lemma convert_header dir network v m6 comment g t ps rules r : convert_to_dict dir network v m6 comment g t ps = Ok rules -> In r rules -> of_header dir network r.
Proof.
  intros H I. unfold convert_to_dict in H. destruct (term_dict _ _ _ _ _ _) as [d|] eqn:E; [|discriminate H]. cbn [bind] in H.
  apply term_dict_header in E. cbv zeta in H.
  assert (Nil : @Ok (list rule_dict) [] = Ok rules -> False) by (intros X; apply ok_inj in X; subst rules; destruct I).
  repeat match type of H with (if ?b then _ else _) = _ => destruct b; [(discriminate H || (exfalso; exact (Nil H)))|] end.
  destruct (t_action t) as [|a l]; [discriminate H|]. destruct (assoc a gce_actions) as [key|] eqn:Ea; [|discriminate H].
  match type of H with (if ?b then _ else _) = _ => destruct b; [discriminate H|] end. apply ok_inj in H. subst rules.
  assert (K : key <> "direction" /\ key <> "network").
  { apply assoc_in in Ea. destruct Ea as [Ea|[Ea|[]]]; injection Ea as _ <-; split; discriminate. }
  match type of I with In _ (if _ then address_rules _ _ ?x else _) => assert (D : of_header dir network x) end.
  { eapply of_header_keeps; [exact E|]. eapply keeps_trans; [|apply keeps_set; apply K]. apply keeps_if; [apply keeps_set; discriminate|apply keeps_refl]. }
  destruct (some _) in I; [apply address_rules_keep in I; [exact (of_header_keeps _ _ _ _ D I)|discriminate|discriminate]|].
  destruct (some _) in I; [apply address_rules_keep in I; [exact (of_header_keeps _ _ _ _ D I)|discriminate|discriminate]|].
  destruct I as [<-|[]]. exact D.
Qed.
Lemma pass_header i mx r : forall vs g comment count rules c' n', gce_pass i mx g vs comment count = Ok (rules, c', n') -> In r rules ->
  of_header (gi_direction i) (gi_network i) r.
Proof.
  induction vs as [|v vs IH]; intros g comment count rules c' n' H I; cbn [gce_pass] in H.
  - apply ok_inj in H. apply pair_equal_spec in H. destruct H as [H _]. apply pair_equal_spec in H. destruct H as [<- _]. destruct I.
  - destruct (gce_init _ _) as [tp|]; [|discriminate H]. cbn [bind] in H.
    match type of H with bind ?m _ = _ => destruct m as [rs|] eqn:C; [|discriminate H] end. cbn [bind] in H.
    match type of H with (if ?b then _ else _) = _ => destruct b; [discriminate H|] end.
    match type of H with bind ?m _ = _ => destruct m as [[[more c2] n2]|] eqn:M; [|discriminate H] end. cbn [bind fst snd] in H.
    apply ok_inj in H. apply pair_equal_spec in H. destruct H as [H _]. apply pair_equal_spec in H. destruct H as [<- _].
    apply in_app_or in I. destruct I as [I|I]; [exact (convert_header _ _ _ _ _ _ _ _ _ _ C I)|exact (IH _ _ _ _ _ _ M I)].
Qed.
Lemma terms_header i mx today r : forall gs hc names count rules n', gce_terms i mx today hc names count gs = Ok (rules, n') -> In r rules ->
  of_header (gi_direction i) (gi_network i) r.
Proof.
  induction gs as [|g gs IH]; intros hc names count rules n' H I; cbn [gce_terms] in H.
  - apply ok_inj in H. apply pair_equal_spec in H. destruct H as [<- _]. destruct I.
  - destruct (t_stateless_reply _); [exact (IH _ _ _ _ _ H I)|].
    match type of H with bind ?m _ = _ => destruct m as [name|]; [|discriminate H] end. cbn [bind] in H.
    destruct (str_in name names); [discriminate H|]. destruct (expired _ _); [exact (IH _ _ _ _ _ H I)|].
    destruct (some _) in H; [discriminate H|]. destruct (active_on _ _); cbn [negb] in H; [|exact (IH _ _ _ _ _ H I)].
    match type of H with bind ?m _ = _ => destruct m as [[[rs c2] n2]|] eqn:Ps; [|discriminate H] end. cbn [bind fst snd] in H.
    match type of H with bind ?m _ = _ => destruct m as [[more n3]|] eqn:Mr; [|discriminate H] end. cbn [bind fst snd] in H.
    apply ok_inj in H. apply pair_equal_spec in H. destruct H as [<- _].
    apply in_app_or in I. destruct I as [I|I]; [exact (pass_header _ _ _ _ _ _ _ _ _ _ Ps I)|exact (IH _ _ _ _ _ Mr I)].
Qed.
Lemma translate_split order today : forall fs mx count rules, gce_translate order today mx count fs = Ok rules ->
  forall before h gs after, fs = before ++ (h, gs) :: after ->
  exists mx' count' rs n' r1 r2, gce_terms (gce_options order (gh_options h)) mx' today (gh_comment h) [] count' (fill_last (gce_options order (gh_options h)) gs) = Ok (rs, n') /\
    gs <> [] /\ rules = r1 ++ rs ++ r2 /\
    (forall r, In r (r1 ++ r2) -> exists h' gs', In (h', gs') (before ++ after) /\
       of_header (gi_direction (gce_options order (gh_options h'))) (gi_network (gce_options order (gh_options h'))) r).
Proof.
  assert (Own : forall fs mx count rules, gce_translate order today mx count fs = Ok rules -> forall r, In r rules -> exists h' gs', In (h', gs') fs /\
     of_header (gi_direction (gce_options order (gh_options h'))) (gi_network (gce_options order (gh_options h'))) r).
  { induction fs as [|[h gs] fs IH]; intros mx count rules H r I; cbn [gce_translate] in H.
    - apply ok_inj in H. subst. destruct I.
    - destruct (negb (some gs)); [discriminate H|].
      match type of H with bind ?m _ = _ => destruct m as [[rs n]|] eqn:T; [|discriminate H] end. cbn [bind fst snd] in H.
      match type of H with bind ?m _ = _ => destruct m as [more|] eqn:M; [|discriminate H] end. cbn [bind] in H. apply ok_inj in H. subst rules.
      apply in_app_or in I. destruct I as [I|I].
      + exists h, gs. split; [left; reflexivity|]. exact (terms_header _ _ _ _ _ _ _ _ _ _ T I).
      + destruct (IH _ _ _ M r I) as (h' & gs' & X & Y). exists h', gs'. split; [right; exact X|exact Y]. }
  induction fs as [|[h0 gs0] fs IH]; intros mx count rules H before h gs after E; [destruct before; discriminate E|]. cbn [gce_translate] in H.
  destruct (some gs0) eqn:Sg; cbn [negb] in H; [|discriminate H]. apply some_true in Sg.
  match type of H with bind ?m _ = _ => destruct m as [[rs n]|] eqn:T; [|discriminate H] end. cbn [bind fst snd] in H.
  match type of H with bind ?m _ = _ => destruct m as [more|] eqn:M; [|discriminate H] end. cbn [bind] in H. apply ok_inj in H. subst rules.
  destruct before as [|b0 before]; cbn [app] in E.
  - injection E as -> -> ->.
    eexists. eexists. exists rs. eexists. exists [], more. split; [exact T|]. split; [exact Sg|]. split; [reflexivity|]. intros r I. exact (Own _ _ _ _ M r I).
  - injection E as <- E2. destruct (IH _ _ _ M before h gs after E2) as (mx' & ct' & rs' & n' & r1 & r2 & T' & Sg' & -> & O).
    exists mx', ct', rs', n', (rs ++ r1), r2. split; [exact T'|]. split; [exact Sg'|]. split; [rewrite app_assoc; reflexivity|].
    intros r I. rewrite <- app_assoc in I. apply in_app_or in I. destruct I as [I|I].
    + exists h0, gs0. split; [left; reflexivity|]. exact (terms_header _ _ _ _ _ _ _ _ _ _ T I).
    + destruct (O r I) as (h' & gs' & X & Y). exists h', gs'. split; [right; exact X|exact Y].
Qed.
Lemma pick_direction opts : fst (pick ["INGRESS"; "EGRESS"] "INGRESS" opts) = "INGRESS" \/ fst (pick ["INGRESS"; "EGRESS"] "INGRESS" opts) = "EGRESS".
Proof. unfold pick. cbn [fold_left fst snd]. destruct (str_in "INGRESS" opts); cbn [fst snd]; destruct (str_in "EGRESS" _); auto. Qed.
Lemma options_direction order opts : gi_direction (gce_options order opts) = "INGRESS" \/ gi_direction (gce_options order opts) = "EGRESS".
Proof.
  unfold gce_options. pose proof (pick_direction opts) as P. destruct (pick ["INGRESS"; "EGRESS"] "INGRESS" opts) as [d o].
  destruct (pick order "inet" o) as [af o2]. destruct (first_int o2) as [[x n]|]; exact P.
Qed.
Lemma networks_agree a b r : in_network a r -> in_network b r -> a = b.
Proof.
  unfold in_network. intros A B. rewrite A in B. destruct a, b; cbn [is_empty] in B; try reflexivity; try discriminate B. injection B as <- <-. reflexivity.
Qed.

(** ** A header: rules against terms *)
Fixpoint pairs (i : gce_info) (gs : list gce_term) : list (gce_term * gce_term) :=
  match gs with
  | [] => []
  | [g] => [(g, if is_default_deny g then fill_default_deny i g else g)]
  | g :: rest => (g, g) :: pairs i rest
  end.
Lemma pairs_fst i gs : map fst (pairs i gs) = gs.
Proof. induction gs as [|g [|h gs] IH]; [reflexivity|reflexivity|]. change (pairs i (g :: h :: gs)) with ((g, g) :: pairs i (h :: gs)). cbn [map fst]. rewrite IH. reflexivity. Qed.
Lemma pairs_snd i gs : map snd (pairs i gs) = fill_last i gs.
Proof.
  induction gs as [|g [|h gs] IH]; [reflexivity|reflexivity|]. change (pairs i (g :: h :: gs)) with ((g, g) :: pairs i (h :: gs)).
  cbn [map snd]. rewrite IH. reflexivity.
Qed.
Lemma pairs_ranked i gs : ranked gs = map (fun x => (fst x, priority_value (g_priority (snd x)))) (pairs i gs).
Proof.
  induction gs as [|g [|h gs] IH]; [reflexivity| |].
  - cbn [ranked pairs map fst snd]. destruct (is_default_deny g); reflexivity.
  - change (pairs i (g :: h :: gs)) with ((g, g) :: pairs i (h :: gs)). cbn [map fst snd]. rewrite <- IH. reflexivity.
Qed.
Lemma pairs_in i gs g g' : In (g, g') (pairs i gs) -> In g gs /\ In g' (fill_last i gs) /\ (g' = g \/ (is_default_deny g = true /\ g' = fill_default_deny i g)).
Proof.
  intros I. split; [rewrite <- (pairs_fst i gs); apply (in_map fst _ _ I)|]. split; [rewrite <- pairs_snd; apply (in_map snd _ _ I)|].
  induction gs as [|h [|k gs] IH]; [destruct I| |].
  - destruct I as [I|[]]. apply pair_equal_spec in I. destruct I as [<- <-]. destruct (is_default_deny h) eqn:E; auto.
  - change (pairs i (h :: k :: gs)) with ((h, h) :: pairs i (k :: gs)) in I. destruct I as [I|I]; [apply pair_equal_spec in I; destruct I as [<- <-]; auto|exact (IH I)].
Qed.

Lemma exists_dec {A} (P : A -> Prop) l : (forall x, In x l -> P x \/ ~ P x) -> (exists x, In x l /\ P x) \/ ~ (exists x, In x l /\ P x).
Proof.
  induction l as [|x l IH]; intros D; [right; intros (x & [] & _)|].
  destruct (D x (or_introl eq_refl)) as [H|H]; [left; exists x; split; [left; reflexivity|exact H]|].
  destruct IH as [(y & Y & Q)|N]; [intros y Y; apply D; right; exact Y|left; exists y; split; [right; exact Y|exact Q]|].
  right. intros (y & [<-|Y] & Q); [contradiction|]. apply N. eauto.
Qed.
Lemma cov_dec l x : covered l x \/ ~ covered l x.
Proof.
  unfold covered. apply exists_dec. intros n _. unfold covers. destruct (ver_eqb (nver n) (fst x)) eqn:E.
  - apply ver_eqb_eq in E. destruct (Z_le_dec (naddr n) (snd x)), (Z_lt_dec (snd x) (naddr n + size n)); tauto.
  - right. intros [X _]. apply ver_eqb_eq in X. congruence.
Qed.
Lemma hit0_dec i dir t p : gce_traffic i p -> hit0 dir t p \/ ~ hit0 dir t p.
Proof.
  intros (_ & _ & _ & _ & D1 & D2).
  assert (T : forall l (P : string -> Prop), (forall s, P s \/ ~ P s) -> tag_hit l P \/ ~ tag_hit l P) by (intros l P D; apply exists_dec; auto).
  assert (A : forall l (P : string -> Prop), (forall s, P s \/ ~ P s) -> any_or l P \/ ~ any_or l P).
  { intros l P D. unfold any_or. destruct (T l P D) as [H|H]; [left; right; exact H|]. destruct l; [left; left; reflexivity|].
    right. intros [X|X]; [discriminate X|contradiction]. }
  assert (W : who0 dir t p \/ ~ who0 dir t p).
  { unfold who0. destruct (cov_dec (t_source_address t) (p_src p)), (cov_dec (t_source_address_exclude t) (p_src p)),
      (cov_dec (t_destination_address t) (p_dst p)), (cov_dec (t_destination_address_exclude t) (p_dst p)), (T (t_source_tag t) _ D1); destruct (String.eqb dir "INGRESS"); tauto. }
  assert (Pr : protos_in t p \/ ~ protos_in t p).
  { unfold protos_in. destruct (in_dec string_dec "all" (t_protocol t)), (in_dec string_dec (p_proto p) (t_protocol t)); try tauto.
    destruct (t_protocol t); [tauto|]. right. intros [X|X]; [discriminate X|tauto]. }
  assert (Po : ports_match (t_destination_port t) (p_dport p) \/ ~ ports_match (t_destination_port t) (p_dport p)).
  { unfold ports_match, in_ports, in_range. destruct (exists_dec (fun r : prange => fst r <= p_dport p <= snd r) (t_destination_port t)) as [H|H].
    - intros r _. lia.
    - tauto.
    - destruct (t_destination_port t); [tauto|]. right. intros [X|X]; [discriminate X|tauto]. }
  assert (Ta : any_or (if String.eqb dir "INGRESS" then t_destination_tag t else t_source_tag t) (if String.eqb dir "INGRESS" then p_dst_tag p else p_src_tag p) \/
    ~ any_or (if String.eqb dir "INGRESS" then t_destination_tag t else t_source_tag t) (if String.eqb dir "INGRESS" then p_dst_tag p else p_src_tag p)).
  { destruct (String.eqb dir "INGRESS"); apply A; assumption. }
  unfold hit0. tauto.
Qed.
Lemma rendered_iff today t : rendered today t = true <-> in_force today t /\ meant_for "gce" t.
Proof.
  unfold rendered, expired, in_force, active_on, meant_for. rewrite andb_true_iff, negb_true_iff.
  assert (S : forall l, str_in "gce" l = true <-> In "gce" l) by (intros; apply str_in_spec).
  assert (E : match t_expiration t with Some d => d <=? today | None => false end = false <-> (forall d, t_expiration t = Some d -> today < d)).
  { destruct (t_expiration t) as [d|]; split.
    - intros H d' X. injection X as <-. lia.
    - intros H. specialize (H d eq_refl). lia.
    - intros _ d X. discriminate X.
    - reflexivity. }
  rewrite E. split.
  - intros [A B]. split; [exact A|]. apply andb_true_iff in B. destruct B as [B C]. split.
    + apply orb_true_iff in B. rewrite negb_true_iff, some_false, S in B. exact B.
    + intros X. apply negb_true_iff in C. apply S in X. rewrite X in C. destruct (t_platform_exclude t); [discriminate X|discriminate C].
  - intros [A [B C]]. split; [exact A|]. apply andb_true_iff. split.
    + apply orb_true_iff. rewrite negb_true_iff, some_false, S. exact B.
    + apply negb_true_iff. destruct (str_in "gce" (t_platform_exclude t)) eqn:X; [apply S in X; contradiction|apply andb_false_r].
Qed.
Lemma matches_meant dir t p : gce_matches dir t p -> p_platform p = "gce" -> meant_for "gce" t.
Proof.
  intros (t' & I & M) Pl.
  assert (E : t_platform t' = t_platform t /\ t_platform_exclude t' = t_platform_exclude t).
  { unfold alternatives in I. destruct (_ && _).
    - destruct I as [<-|[<-|[]]]; destruct t; split; reflexivity.
    - destruct I as [<-|[]]. split; reflexivity. }
  destruct M as (_ & _ & _ & _ & _ & _ & _ & (M1 & M2 & _) & _). rewrite Pl in *. destruct E as [E1 E2]. rewrite E1 in M1. rewrite E2 in M2. split.
  - destruct M1 as [M1|(a & A & <-)]; [left; exact M1|right; exact A].
  - intros X. exact (M2 _ X eq_refl).
Qed.
Lemma split_map {A B} (f : A -> B) : forall l a x b, map f l = a ++ x :: b -> exists a' x' b', l = a' ++ x' :: b' /\ map f a' = a /\ f x' = x /\ map f b' = b.
Proof.
  induction l as [|y l IH]; intros a x b H; [destruct a; discriminate H|]. destruct a as [|a0 a]; cbn [map app] in H.
  - injection H as H1 H2. exists [], y, l. auto.
  - injection H as H1 H2. destruct (IH _ _ _ H2) as (a' & x' & b' & -> & E1 & E2 & E3). exists (y :: a'), x', b'. split; [reflexivity|].
    cbn [map]. rewrite H1, E1. auto.
Qed.

Theorem gce_decides order today before h gs after rules p v :
  gce_policy order today (before ++ (h, gs) :: after) = Ok rules ->
  (forall g, In g gs -> meant_for "gce" (g_term g) -> in_force today (g_term g) -> gce_term_ok (gce_options order (gh_options h)) g) ->
  well_ranked today gs -> own_firewall order before after (gce_options order (gh_options h)) -> gce_traffic (gce_options order (gh_options h)) p ->
  firewall_decides rules (gi_network (gce_options order (gh_options h))) (gi_direction (gce_options order (gh_options h))) p v <->
  policy_decides today (gi_direction (gce_options order (gh_options h))) gs p v.
Proof.
  intros H Good Rank Own Tr. unfold gce_policy in H.
  destruct (check_tokens "gce" gce_tokens _) as [[]|] eqn:Ck; [|discriminate H]. cbn [bind] in H.
  destruct (translate_split _ _ _ _ _ _ H before h gs after eq_refl) as (mx & ct & rs & n' & r1 & r2 & T & _ & -> & Others).
  pose proof (options_direction order (gh_options h)) as Dir. set (i := gce_options order (gh_options h)) in *. clearbody i.
  assert (Pl : p_platform p = "gce") by apply Tr.
  assert (Acc : forall g, In g gs -> meant_for "gce" (g_term g) -> _) by
    (intros g I M; refine (accepted_bare _ ["gce"] (map g_term gs) (g_term g) Ck _ (or_introl eq_refl) (in_map g_term _ _ I) M);
     rewrite map_app; apply in_or_app; right; left; reflexivity). cbn beta in Acc.
  set (dir := gi_direction i) in *.
  (* the rendered terms *)
  assert (Fst : forall g', In g' (fill_last i gs) -> exists g, In (g, g') (pairs i gs)).
  { intros g' I. rewrite <- pairs_snd in I. apply in_map_iff in I. destruct I as ((g & x) & <- & I). exists g. exact I. }
  assert (Same : forall g g', In (g, g') (pairs i gs) -> rendered today (g_term g') = rendered today (g_term g) /\ t_action (g_term g') = t_action (g_term g) /\
     t_stateless_reply (g_term g') = t_stateless_reply (g_term g)).
  { intros g g' I. apply pairs_in in I. destruct I as (_ & _ & [->|[_ ->]]); [auto|].
    destruct (fill_fields i g) as (_ & F2 & _ & _ & _ & _ & _ & _ & _ & _ & F11 & F12 & F13 & F14).
    unfold rendered, expired, active_on. rewrite F11, F12, F13. auto. }
  assert (Okg : forall g g', In (g, g') (pairs i gs) -> rendered today (g_term g) = true ->
     gce_term_ok i g /\ g_source_accounts g' = [] /\ g_target_accounts g' = [] /\ fit i (g_term g')).
  { intros g g' I R. apply rendered_iff in R. destruct R as [R1 R2]. destruct (pairs_in _ _ _ _ I) as (Ig & _ & C).
    pose proof (Good g Ig R2 R1) as G. destruct (Acc g Ig R2) as [Ae _]. split; [exact G|]. destruct (gt_accounts _ _ G) as [A1 A2].
    destruct C as [->|[Dd ->]]; [split; [exact A1|]; split; [exact A2|exact (ok_fit _ _ G Ae)]|].
    split; [exact A1|]. split; [exact A2|]. apply fill_fit; [exact Dd|exact Ae|apply G]. }
  destruct (terms_say i mx today Dir _ _ _ _ _ _ T) as (Ck' & Snd & Cmp).
  { intros g' I R. destruct (Fst g' I) as (g & P). destruct (Same g g' P) as (S1 & _ & S3). rewrite S1 in R. rewrite S3. apply (Okg g g' P R). }
  { intros g' I R. destruct (Fst g' I) as (g & P). destruct (Same g g' P) as (S1 & _). rewrite S1 in R. apply (Okg g g' P R). }
  set (matched := fun x : gce_term * gce_term => rendered today (g_term (fst x)) = true /\ hit0 dir (g_term (snd x)) p).
  set (act := fun x : gce_term * gce_term => match t_action (g_term (fst x)) with [a] => a | _ => "" end).
  set (prio := fun x : gce_term * gce_term => match priority_value (g_priority (snd x)) with Some n => n | None => 0 end).
  assert (Eq : forall x, In x (pairs i gs) -> in_force today (g_term (fst x)) /\ gce_matches dir (g_term (fst x)) p <-> matched x).
  { intros [g g'] I. unfold matched. cbn [fst snd].
    assert (K : rendered today (g_term g) = true -> gce_matches dir (g_term g) p <-> hit0 dir (g_term g') p).
    { intros R. destruct (Okg g g' I R) as (G & _). destruct (Same g g' I) as (S1 & _). destruct (pairs_in _ _ _ _ I) as (Ig & Ig' & C).
      pose proof (proj1 (rendered_iff _ _) R) as [_ R2]. destruct (Acc g Ig R2) as [_ Br].
      destruct (gt_texts _ _ G) as (_ & X1 & X2 & X3 & X4 & X5).
      destruct C as [->|[Dd ->]].
      - destruct (Ck' g Ig' R) as [O C]. apply match_iff; auto. apply Br; auto; [apply C|apply G|apply G].
      - split; [intros _; apply fill_hits; auto|]. intros _. destruct (default_deny_fields g Dd) as (_ & _ & _ & [[N1 N2] [N3 N4] [N5 N6] N7 [N8 N9] N10]).
        exists (g_term g). split; [unfold alternatives; rewrite N1; cbn [some]; rewrite andb_false_r; left; reflexivity|].
        assert (B : bare (g_term g)) by (apply Br; auto; apply G).
        apply (bare_matches _ p B Pl). rewrite N1, N2, N3, N4, N6, N7, N8, N9.
        assert (S0 : forall x, side_matches [] [] x) by (intros x; split; [left; reflexivity|rewrite covered_nil; tauto]).
        split; [apply S0|]. split; [apply S0|]. split; [left; reflexivity|]. split; [left; reflexivity|]. split; left; reflexivity. }
    split.
    - intros [F M]. assert (R : rendered today (g_term g) = true) by (apply rendered_iff; split; [exact F|exact (matches_meant _ _ _ M Pl)]).
      split; [exact R|]. apply (K R), M.
    - intros [R M]. split; [apply rendered_iff in R; apply R|]. apply (K R), M. }
  assert (Act : forall x, In x (pairs i gs) -> matched x -> t_action (g_term (fst x)) = [act x]).
  { intros [g g'] I [R _]. cbn [fst] in *. destruct (Okg g g' I R) as (G & _). destruct (gt_action _ _ G) as [a A]. unfold act. cbn [fst]. rewrite A. reflexivity. }
  assert (Pri : forall x, In x (pairs i gs) -> priority_value (g_priority (snd x)) = Some (prio x)).
  { intros x I. destruct Rank as [Rk _]. destruct (Rk (fst x) (priority_value (g_priority (snd x)))) as [n E].
    - rewrite (pairs_ranked i). apply in_map_iff. exists x. auto.
    - unfold prio. rewrite E. reflexivity. }
  assert (Sound : forall r w, In r (r1 ++ rs ++ r2) -> in_network (gi_network i) r -> rule_says dir r p w ->
    exists x, In x (pairs i gs) /\ matched x /\ act x = w /\ rule_priority r = Some (prio x)).
  { intros r w I N S.
    assert (Ir : In r rs).
    { apply in_app_or in I. destruct I as [I|I]; [|apply in_app_or in I; destruct I as [I|I]; [exact I|]].
      all: exfalso; destruct (Others r) as (h' & gs' & X & (Y & Z)); [apply in_or_app; auto|].
      all: destruct (Own h' gs' X) as [Q|Q]; [apply Q; exact (networks_agree _ _ _ Z N)|].
      all: apply Q; destruct S as (S & _); unfold dir in S; congruence. }
    destruct (Snd r Ir) as (g' & Ig & R & P & Q). destruct (Fst g' Ig) as (g & Ip). exists (g, g'). split; [exact Ip|].
    destruct (Same g g' Ip) as (S1 & S2 & _). destruct (Q p w (traffic_plain _ _ Tr) S) as [Q1 Q2].
    assert (M : matched (g, g')) by (split; [cbn [fst]; rewrite <- S1; exact R|exact Q1]). split; [exact M|]. split.
    - pose proof (Act _ Ip M) as A. cbn [fst] in A. rewrite <- S2, Q2 in A. injection A as A. symmetry. exact A.
    - unfold rule_priority. rewrite P. exact (Pri _ Ip). }
  assert (Complete : forall x, In x (pairs i gs) -> matched x ->
    exists r, In r (r1 ++ rs ++ r2) /\ in_network (gi_network i) r /\ rule_says dir r p (act x) /\ rule_priority r = Some (prio x)).
  { intros [g g'] I [R Hi]. cbn [fst snd] in *. destruct (Same g g' I) as (S1 & S2 & _). destruct (pairs_in _ _ _ _ I) as (_ & Ig' & _).
    destruct (Cmp g' p Ig' ltac:(rewrite S1; exact R) Tr Hi) as (r & w & Ir & A & P & S). exists r.
    split; [apply in_or_app; right; apply in_or_app; left; exact Ir|]. split; [apply (terms_header _ _ _ _ _ _ _ _ _ _ T Ir)|]. split.
    - pose proof (Act (g, g') I (conj R Hi)) as A'. cbn [fst] in A'. rewrite <- S2, A in A'. injection A' as <-. exact S.
    - unfold rule_priority. rewrite P. exact (Pri _ I). }
  rewrite <- (ordered_iff_ (pairs i gs) matched prio act) with (rules := r1 ++ rs ++ r2); try assumption.
  - unfold ordered_decides, policy_decides. fold dir.
    assert (Fs : first_says (fun x w => matched x /\ act x = w) (pairs i gs) v <->
      first_says (fun g w => in_force today (g_term g) /\ gce_matches dir (g_term g) p /\ t_action (g_term g) = [w]) gs v).
    { split.
      - intros (a & x & b & E & [M A] & N). exists (map fst a), (fst x), (map fst b). split; [rewrite <- (pairs_fst i gs), E, map_app; reflexivity|].
        assert (Ix : In x (pairs i gs)) by (rewrite E; apply in_or_app; right; left; reflexivity).
        split; [pose proof (proj2 (Eq x Ix) M) as [F G]; rewrite (Act x Ix M), A; auto|].
        intros g w Ig (F & G & W). apply in_map_iff in Ig. destruct Ig as (y & <- & Iy).
        assert (Iy' : In y (pairs i gs)) by (rewrite E; apply in_or_app; left; exact Iy).
        assert (My : matched y) by (apply (Eq y Iy'); auto). rewrite (Act y Iy' My) in W. injection W as W. exact (N y w Iy (conj My W)).
      - intros (a & g & b & E & (F & G & W) & N). rewrite <- (pairs_fst i gs) in E. apply split_map in E. destruct E as (a' & x & b' & E & <- & <- & <-).
        assert (Ix : In x (pairs i gs)) by (rewrite E; apply in_or_app; right; left; reflexivity).
        assert (M : matched x) by (apply (Eq x Ix); auto).
        exists a', x, b'. split; [exact E|]. split; [split; [exact M|]; rewrite (Act x Ix M) in W; injection W as W; exact W|].
        intros y w Iy [My Aw]. assert (Iy' : In y (pairs i gs)) by (rewrite E; apply in_or_app; left; exact Iy).
        apply (N (fst y) w (in_map fst _ _ Iy)). pose proof (proj2 (Eq y Iy') My) as [F' G']. rewrite (Act y Iy' My), Aw. auto. }
    assert (Nn : (forall x, In x (pairs i gs) -> ~ matched x) <-> (forall g, In g gs -> in_force today (g_term g) -> ~ gce_matches dir (g_term g) p)).
    { split.
      - intros N g Ig F G. rewrite <- (pairs_fst i gs) in Ig. apply in_map_iff in Ig. destruct Ig as (x & <- & Ix). apply (N x Ix). apply (Eq x Ix). auto.
      - intros N x Ix M. apply (Eq x Ix) in M. destruct M as [F G]. apply (N (fst x)); [|exact F|exact G]. rewrite <- (pairs_fst i gs). apply in_map, Ix. }
    rewrite Fs, Nn. reflexivity.
  - intros x Ix M. destruct (Complete x Ix M) as (r & _ & _ & S & _). exact (says_verdict _ _ _ _ S).
  - intros x _. unfold matched. destruct (rendered today (g_term (fst x))); [|right; intros [X _]; discriminate X].
    destruct (hit0_dec i dir (g_term (snd x)) p Tr) as [X|X]; [left; auto|right; intros [_ Y]; contradiction].
  - intros a x b y c E Mx My Ne.
    assert (Ix : In x (pairs i gs)) by (rewrite E; apply in_or_app; right; left; reflexivity).
    assert (Iy : In y (pairs i gs)) by (rewrite E; apply in_or_app; right; right; apply in_or_app; right; left; reflexivity).
    destruct Rank as [_ Rank].
    assert (Er : ranked gs = map (fun x => (fst x, priority_value (g_priority (snd x)))) a ++ (fst x, Some (prio x)) ::
       map (fun x => (fst x, priority_value (g_priority (snd x)))) b ++ (fst y, Some (prio y)) :: map (fun x => (fst x, priority_value (g_priority (snd x)))) c).
    { rewrite (pairs_ranked i), E, map_app. cbn [map]. rewrite map_app. cbn [map]. rewrite (Pri x Ix), (Pri y Iy). reflexivity. }
    pose proof (proj1 (rendered_iff _ _) (proj1 Mx)) as [Fx _]. pose proof (proj1 (rendered_iff _ _) (proj1 My)) as [Fy _].
    destruct (Rank _ _ _ _ _ _ _ Er Fx Fy) as [L|[L Ad]].
    + rewrite (Act x Ix Mx), (Act y Iy My). intros X. injection X as X. contradiction.
    + left. exact L.
    + right. split; [exact L|]. rewrite (Act x Ix Mx) in Ad. injection Ad as Ad. exact Ad.
Qed.
