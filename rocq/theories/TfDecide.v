(** Proofs about the Terraform generator: the declared rules decide as the policy. *)
From Coq Require Import Lia ZifyBool ZifyNat Permutation.
From Verif Require Import SpecTf BaseFacts PyStrFacts IPFacts CollapseProofs ExcludeProofs PolicyProofs GenProofs GenProofs2 TextProofs CiscoProofs GceProofs GceRules GcePolicy GceDecide GceNames TfRules TfPolicy.
Local Open Scope string_scope.
Local Open Scope list_scope.
Local Open Scope Z_scope.

(** ** Terms for this platform and for gce.py *)
Definition clear (t : term) : term := set_platform [] (set_platform_exclude [] t).
Definition on_gce (p : packet) : packet :=
  mkPacket (p_src p) (p_dst p) (p_proto p) (p_sport p) (p_dport p) (p_icmp_type p) (p_icmp_code p) (p_option p) (p_src_prefix p) (p_dst_prefix p)
    (p_src_tag p) (p_dst_tag p) (p_precedence p) (p_class p) (p_fragment p) (p_hops p) (p_length p) (p_ttl p) (p_ether p) (p_traffic p) (p_dscp p)
    (p_src_zone p) (p_dst_zone p) (p_src_if p) (p_dst_if p) (p_family p) "gce".
Lemma on_gce_traffic i p : tf_traffic i p -> gce_traffic i (on_gce p).
Proof. intros (A & B & C & _ & D). split; [exact A|]. split; [exact B|]. split; [exact C|]. split; [reflexivity|exact D]. Qed.
Lemma clear_matches pl t p : meant_for pl t -> p_platform p = pl -> term_matches t p <-> term_matches (clear t) (on_gce p).
Proof.
  intros [M1 M2] Pl. destruct t. unfold clear, on_gce, term_matches, place_matches. cbn in *. rewrite Pl.
  assert (A : any_or t_platform (eq pl)) by (destruct M1 as [->|I]; [left; reflexivity|right; eexists; split; [exact I|reflexivity]]).
  assert (B : none_of t_platform_exclude (eq pl)) by (intros a I E; subst a; exact (M2 I)).
  assert (A' : any_or [] (eq "gce")) by (left; reflexivity). assert (B' : none_of [] (eq "gce")) by (intros a []).
  tauto.
Qed.
Lemma clear_alternatives dir t : alternatives dir (clear t) = map clear (alternatives dir t).
Proof.
  unfold alternatives. change (t_source_address (clear t)) with (t_source_address t). change (t_source_tag (clear t)) with (t_source_tag t).
  destruct (_ && _); reflexivity.
Qed.
Lemma alternatives_meant pl dir t t' : In t' (alternatives dir t) -> meant_for pl t -> meant_for pl t'.
Proof.
  intros I M. unfold alternatives in I. destruct (_ && _); [|destruct I as [<-|[]]; exact M]. destruct t. destruct I as [<-|[<-|[]]]; exact M.
Qed.
Lemma clear_gce_matches pl dir t p : meant_for pl t -> p_platform p = pl -> gce_matches dir t p <-> gce_matches dir (clear t) (on_gce p).
Proof.
  intros M Pl. unfold gce_matches. rewrite clear_alternatives. split.
  - intros (t' & I & Q). exists (clear t'). split; [apply in_map, I|]. apply (clear_matches pl t' p); [exact (alternatives_meant _ _ _ _ I M)|exact Pl|exact Q].
  - intros (t' & I & Q). apply in_map_iff in I. destruct I as (u & <- & I). exists u. split; [exact I|].
    apply (clear_matches pl u p) in Q; [exact Q|exact (alternatives_meant _ _ _ _ I M)|exact Pl].
Qed.
Definition clear_term (g : gce_term) : gce_term := mkGceTerm (clear (g_term g)) (g_priority g) (g_source_accounts g) (g_target_accounts g).
Lemma clear_ok i g : gce_term_ok i g -> gce_term_ok i (clear_term g).
Proof. intros [G1 G2 G3 G4 G5 G6 G7 G8 G9 G10 G11 G12]. destruct g as [t pr sa ta]. destruct t. constructor; assumption. Qed.
Lemma clear_checked dir t : checked dir t -> checked dir (clear t).
Proof. intros [C1 C2 C3 C4]. destruct t. constructor; assumption. Qed.
Lemma clear_hit dir t p : hit0 dir (clear t) (on_gce p) <-> hit0 dir t p.
Proof. destruct t. reflexivity. Qed.
Lemma accepted_clear platform tk filters ps ts t : supported tk = supported gce_tokens ->
  check_tokens platform tk filters = Ok tt -> In (ps, ts) filters -> In platform ps -> In t ts -> meant_for platform t ->
  t_address_exclude t = [] /\
  (t_option t = [] -> t_source_port t = [] -> t_restrict_address_family t = None -> t_ttl t <> Some 0 ->
   t_packet_length t <> Some "" -> t_hop_limit t <> Some "" -> t_fragment_offset t <> Some "" ->
   t_source_interface t <> Some "" -> t_destination_interface t <> Some "" -> bare (clear t)).
Proof.
  intros Tk H I1 I2 I3 M.
  pose proof (unsupported_not_set platform tk filters ps ts t H I1 I2 I3 M) as U. rewrite Tk in U.
  assert (N : forall s, str_in s (supported gce_tokens) = false -> ~ In s (supported gce_tokens)) by (intros s E X; apply str_in_spec in X; congruence).
  destruct U as (U1 & U2 & _ & _ & _ & _ & U3 & _ & _ & _ & U4 & _ & U5 & U6 & U7 & U8 & U9 & U10 & U11 & U12 & U13 & U14 & U15 & U16 & U17 & U18 & U19 & U20 & U21 & U22 & U23 & U24 & U25).
  assert (O : forall {A} (o : option A) x, o = None \/ o = Some x -> o <> Some x -> o = None) by (intros A o x [X|X] Y; [exact X|contradiction]).
  split; [apply U2, N; reflexivity|]. intros E1 E2 E3 E4 E5 E6 E7 E8 E9.
  assert (T : forall o, o = None \/ o = Some "" -> o <> Some "" -> text_range o = text_range None) by (intros o X Y; rewrite (O _ _ _ X Y); reflexivity).
  assert (M' : meant_for "gce" (clear t)) by (destruct t; split; [left; reflexivity|intros []]).
  constructor; try exact (conj M' (conj (U18 (N "source_zone" eq_refl)) (U19 (N "destination_zone" eq_refl)))).
  - change (t_address t = [] /\ t_address_exclude t = []). split; [apply U1|apply U2]; apply N; reflexivity.
  - change (t_port t = [] /\ t_source_port t = []). split; [apply U3, N; reflexivity|exact E2].
  - change (t_protocol_except t = []). apply U4, N; reflexivity.
  - split; [apply U5, N; reflexivity|]. split; [apply U6, N; reflexivity|]. split; [apply U7, N; reflexivity|apply U8, N; reflexivity].
  - split; [apply U9, N; reflexivity|]. split; [exact E1|]. split; [apply U10, N; reflexivity|apply U11, N; reflexivity].
  - split; [apply T; [apply U21, N; reflexivity|exact E7]|]. split; [apply T; [apply U22, N; reflexivity|exact E6]|].
    split; [apply T; [apply U23, N; reflexivity|exact E5]|]. exact (O _ _ _ (U20 (N "ttl" eq_refl)) E4).
  - split; [apply U12|apply U13]; apply N; reflexivity.
  - split; [apply U14, N; reflexivity|]. split; [apply U15, N; reflexivity|]. split; [apply U16, N; reflexivity|]. split; [apply U17, N; reflexivity|].
    split; [exact (O _ _ _ (U24 (N "source_interface" eq_refl)) E8)|]. split; [exact (O _ _ _ (U25 (N "destination_interface" eq_refl)) E9)|exact E3].
Qed.
Lemma tf_rendered_iff today t : tf_rendered today t = true <-> in_force today t /\ meant_for "gce_vpc_tf" t.
Proof.
  unfold tf_rendered, expired, in_force, active_on, meant_for. rewrite andb_true_iff, negb_true_iff.
  assert (S : forall l, str_in "gce_vpc_tf" l = true <-> In "gce_vpc_tf" l) by (intros; apply str_in_spec).
  assert (E : match t_expiration t with Some d => d <=? today | None => false end = false <-> (forall d, t_expiration t = Some d -> today < d)).
  { destruct (t_expiration t) as [d|]; split.
    - intros H d' X. injection X as <-. lia.
    - intros H. specialize (H d eq_refl). lia.
    - intros _ d X. discriminate X.
    - reflexivity. }
  rewrite E. split.
  - intros [A B]. split; [exact A|]. apply andb_true_iff in B. destruct B as [B C]. split.
    + apply orb_true_iff in B. rewrite negb_true_iff, some_false, S in B. exact B.
    + intros X. apply negb_true_iff in C. apply S in X. rewrite X in C. destruct (t_platform_exclude t); [discriminate X|discriminate C].
  - intros [A [B C]]. split; [exact A|]. apply andb_true_iff. split.
    + apply orb_true_iff. rewrite negb_true_iff, some_false, S. exact B.
    + apply negb_true_iff. destruct (str_in "gce_vpc_tf" (t_platform_exclude t)) eqn:X; [apply S in X; contradiction|apply andb_false_r].
Qed.
Lemma tf_meant dir t p : gce_matches dir t p -> p_platform p = "gce_vpc_tf" -> meant_for "gce_vpc_tf" t.
Proof.
  intros (t' & I & M) Pl.
  assert (E : t_platform t' = t_platform t /\ t_platform_exclude t' = t_platform_exclude t).
  { unfold alternatives in I. destruct (_ && _).
    - destruct I as [<-|[<-|[]]]; destruct t; split; reflexivity.
    - destruct I as [<-|[]]. split; reflexivity. }
  destruct M as (_ & _ & _ & _ & _ & _ & _ & (M1 & M2 & _) & _). rewrite Pl in *. destruct E as [E1 E2]. rewrite E1 in M1. rewrite E2 in M2. split.
  - destruct M1 as [M1|(a & A & <-)]; [left; exact M1|right; exact A].
  - intros X. exact (M2 _ X eq_refl).
Qed.

(** ** The last term *)
Fixpoint tf_pairs (i : gce_info) (gs : list gce_term) : list (gce_term * gce_term) :=
  match gs with
  | [] => []
  | [g] => [(g, if is_default_deny g then tf_default_deny i g else g)]
  | g :: rest => (g, g) :: tf_pairs i rest
  end.
Lemma tf_pairs_fst i gs : map fst (tf_pairs i gs) = gs.
Proof. induction gs as [|g [|h gs] IH]; [reflexivity|reflexivity|]. change (tf_pairs i (g :: h :: gs)) with ((g, g) :: tf_pairs i (h :: gs)). cbn [map fst]. rewrite IH. reflexivity. Qed.
Lemma tf_pairs_snd i gs : map snd (tf_pairs i gs) = tf_fill_last i gs.
Proof.
  induction gs as [|g [|h gs] IH]; [reflexivity|reflexivity|]. change (tf_pairs i (g :: h :: gs)) with ((g, g) :: tf_pairs i (h :: gs)).
  cbn [map snd]. rewrite IH. reflexivity.
Qed.
Lemma tf_pairs_in i gs g g' : In (g, g') (tf_pairs i gs) -> In g gs /\ In g' (tf_fill_last i gs) /\ (g' = g \/ (is_default_deny g = true /\ g' = tf_default_deny i g)).
Proof.
  intros I. split; [rewrite <- (tf_pairs_fst i gs); apply (in_map fst _ _ I)|]. split; [rewrite <- tf_pairs_snd; apply (in_map snd _ _ I)|].
  induction gs as [|h [|k gs] IH]; [destruct I| |].
  - destruct I as [I|[]]. apply pair_equal_spec in I. destruct I as [<- <-]. destruct (is_default_deny h) eqn:E; auto.
  - change (tf_pairs i (h :: k :: gs)) with ((h, h) :: tf_pairs i (k :: gs)) in I. destruct I as [I|I]; [apply pair_equal_spec in I; destruct I as [<- <-]; auto|exact (IH I)].
Qed.
Lemma tf_deny_term i g : g_term (tf_default_deny i g) = g_term (fill_default_deny i g).
Proof. reflexivity. Qed.
Lemma families_some af : gce_families af <> [].
Proof. unfold gce_families. destruct (String.eqb af "mixed"); [discriminate|]. destruct (String.eqb af "inet6"); discriminate. Qed.
Lemma deny_no_own i g : (gi_direction i = "INGRESS" \/ gi_direction i = "EGRESS") -> no_own_priority (tf_default_deny i g).
Proof.
  intros Dir. right. rewrite tf_deny_term. destruct (fill_fields i g) as (_ & _ & _ & _ & _ & _ & _ & _ & -> & -> & _).
  pose proof (families_some (gi_af i)) as F. destruct (gce_families (gi_af i)) as [|v l]; [contradiction|].
  destruct Dir as [->| ->]; [left|right]; discriminate.
Qed.

(** ** Decisions *)
Lemma tf_says_verdict dir r p w : tf_rule_says dir r p w -> w = "accept" \/ w = "deny".
Proof.
  intros (_ & _ & _ & _ & key & l & e & K & _). unfold tf_verdict_key in K.
  destruct (String.eqb w "accept") eqn:E; [left; apply String.eqb_eq, E|]. destruct (String.eqb w "deny") eqn:E2; [right; apply String.eqb_eq, E2|discriminate K].
Qed.
Lemma tf_unique out network dir p v w : tf_decides out network dir p v -> tf_decides out network dir p w -> v = w.
Proof.
  intros [(a & r & n & I & W & S & P & B)|[N ->]] [(a' & r' & n' & I' & W' & S' & P' & B')|[N' ->]].
  - destruct (string_dec v w) as [E|E]; [exact E|exfalso]. specialize (B a' r' w n' I' W' S' (not_eq_sym E) P'). specialize (B' a r v n I W S E P).
    destruct B as [B|[B ->]], B' as [B'|[B' ->]]; try lia. apply E. reflexivity.
  - exfalso. exact (N' a r v I W S).
  - exfalso. exact (N a' r' w I' W' S').
  - reflexivity.
Qed.
Lemma forall2_split {A B} (R : A -> B -> Prop) : forall a x b m, Forall2 R (a ++ x :: b) m -> exists a' y b', m = a' ++ y :: b' /\ Forall2 R a a' /\ R x y /\ Forall2 R b b'.
Proof.
  induction a as [|z a IH]; intros x b m F; cbn [app] in F; inversion F as [|u v l k H1 H2]; subst.
  - exists [], v, k. split; [reflexivity|]. split; [constructor|auto].
  - destruct (IH _ _ _ H2) as (a' & y & b' & -> & X & Y & Z). exists (v :: a'), y, b'. split; [reflexivity|]. split; [constructor; assumption|auto].
Qed.
Lemma forall2_concat {A B} (R : A -> list B -> Prop) l m y : Forall2 R l m -> In y (concat m) -> exists x b, In x l /\ In b m /\ In y b /\ R x b.
Proof.
  intros F I. apply in_concat in I. destruct I as (b & I & J). destruct (forall2_right _ _ _ _ F I) as (x & X & Y). exists x, b. auto.
Qed.
Lemma forall2_map {A B C} (f : C -> A) (R : A -> B -> Prop) l m : Forall2 R (map f l) m -> Forall2 (fun x y => R (f x) y) l m.
Proof.
  revert m. induction l as [|x l IH]; intros m F; inversion F; subst; constructor; auto.
Qed.
Theorem tf_decides_as_policy order today before h gs after out p v :
  tf_policy order today (before ++ (h, gs) :: after) = Ok out ->
  (forall g, In g gs -> meant_for "gce_vpc_tf" (g_term g) -> in_force today (g_term g) -> gce_term_ok (gce_options order (gh_options h)) g /\ no_own_priority g) ->
  own_firewall order before after (gce_options order (gh_options h)) -> tf_traffic (gce_options order (gh_options h)) p ->
  tf_decides out (gi_network (gce_options order (gh_options h))) (gi_direction (gce_options order (gh_options h))) p v <->
  policy_decides today (gi_direction (gce_options order (gh_options h))) gs p v.
Proof.
  intros H Good Own Tr. unfold tf_policy in H.
  destruct (check_tokens "gce_vpc_tf" tf_tokens _) as [[]|] eqn:Ck; [|discriminate H]. cbn [bind] in H.
  destruct (tf_translate _ _ _ _ _ _) as [ds|] eqn:Tl; [|discriminate H]. cbn [bind] in H. apply ok_inj in H.
  destruct (tf_translate_split _ _ _ _ _ _ _ Tl before h gs after eq_refl) as (mx & ct & ix & rs & n' & x' & r1 & r2 & T & _ & -> & Others).
  unfold header_info in *.
  pose proof (options_direction order (gh_options h)) as Dir. set (i := gce_options order (gh_options h)) in *. clearbody i.
  assert (Pl : p_platform p = "gce_vpc_tf") by apply Tr. pose proof (on_gce_traffic _ _ Tr) as Trg.
  assert (Acc : forall g, In g gs -> meant_for "gce_vpc_tf" (g_term g) -> _) by
    (intros g I M; refine (accepted_clear "gce_vpc_tf" tf_tokens _ ["gce_vpc_tf"] (map g_term gs) (g_term g) eq_refl Ck _ (or_introl eq_refl) (in_map g_term _ _ I) M);
     rewrite map_app; apply in_or_app; right; left; reflexivity). cbn beta in Acc.
  assert (Dec : forall r, (exists name, declares out name r) <-> in_dicts (r1 ++ rs ++ r2) r).
  { intros r. unfold declares, in_dicts. subst out. split.
    - intros (name & top & kinds & blocks & d & E1 & E2 & E3 & E4 & E5). injection E1 as <-. injection E2 as <-. injection E3 as <-.
      apply in_map_iff in E4. destruct E4 as (d' & E & I). injection E as ->. exists d, name. auto.
    - intros (d & name & I & A). exists name. eexists. eexists. eexists. exists d. split; [reflexivity|]. split; [reflexivity|]. split; [reflexivity|].
      split; [apply in_map, I|exact A]. }
  clear H.
  set (dir := gi_direction i) in *.
  assert (Fst : forall g', In g' (tf_fill_last i gs) -> exists g, In (g, g') (tf_pairs i gs)).
  { intros g' I. rewrite <- tf_pairs_snd in I. apply in_map_iff in I. destruct I as ((g & x) & <- & I). exists g. exact I. }
  assert (Same : forall g g', In (g, g') (tf_pairs i gs) -> tf_rendered today (g_term g') = tf_rendered today (g_term g) /\ t_action (g_term g') = t_action (g_term g) /\
     t_stateless_reply (g_term g') = t_stateless_reply (g_term g)).
  { intros g g' I. apply tf_pairs_in in I. destruct I as (_ & _ & [->|[_ ->]]); [auto|]. rewrite tf_deny_term.
    destruct (fill_fields i g) as (_ & F2 & _ & _ & _ & _ & _ & _ & _ & _ & F11 & F12 & F13 & F14).
    unfold tf_rendered, expired, active_on. rewrite F11, F12, F13. auto. }
  assert (Okg : forall g g', In (g, g') (tf_pairs i gs) -> tf_rendered today (g_term g) = true ->
     gce_term_ok i g /\ g_source_accounts g' = [] /\ g_target_accounts g' = [] /\ fit i (g_term g') /\ no_own_priority g').
  { intros g g' I R. apply tf_rendered_iff in R. destruct R as [R1 R2]. destruct (tf_pairs_in _ _ _ _ I) as (Ig & _ & C).
    destruct (Good g Ig R2 R1) as [G Np]. destruct (Acc g Ig R2) as [Ae _]. split; [exact G|]. destruct (gt_accounts _ _ G) as [A1 A2].
    destruct C as [->|[Dd ->]]; [split; [exact A1|]; split; [exact A2|split; [exact (ok_fit _ _ G Ae)|exact Np]]|].
    split; [exact A1|]. split; [exact A2|]. split; [|exact (deny_no_own i g Dir)]. rewrite tf_deny_term. apply fill_fit; [exact Dd|exact Ae|apply G]. }
  destruct (tf_terms_say i mx today Dir _ _ _ _ _ _ _ _ T) as (Ck' & blocks & Hold & Cnt & F2).
  { intros g' I R. destruct (Fst g' I) as (g & P). destruct (Same g g' P) as (S1 & _ & S3). rewrite S1 in R. rewrite S3. split; [apply (Okg g g' P R)|apply (Okg g g' P R)]. }
  rewrite <- tf_pairs_snd in F2. apply forall2_map in F2.
  set (matched := fun x : gce_term * gce_term => tf_rendered today (g_term (fst x)) = true /\ hit0 dir (g_term (snd x)) p).
  assert (Eq : forall x, In x (tf_pairs i gs) -> in_force today (g_term (fst x)) /\ gce_matches dir (g_term (fst x)) p <-> matched x).
  { intros [g g'] I. unfold matched. cbn [fst snd].
    assert (K : tf_rendered today (g_term g) = true -> gce_matches dir (g_term g) p <-> hit0 dir (g_term g') p).
    { intros R. destruct (Okg g g' I R) as (G & _). destruct (Same g g' I) as (S1 & _). destruct (tf_pairs_in _ _ _ _ I) as (Ig & Ig' & C).
      pose proof (proj1 (tf_rendered_iff _ _) R) as [_ R2]. destruct (Acc g Ig R2) as [_ Br].
      destruct (gt_texts _ _ G) as (_ & X1 & X2 & X3 & X4 & X5). rewrite (clear_gce_matches _ _ _ _ R2 Pl).
      destruct C as [->|[Dd ->]].
      - destruct (Ck' g Ig' R) as [O C]. rewrite <- clear_hit.
        apply (match_iff i (clear_term g) (on_gce p)); [exact (clear_ok _ _ G)| |exact (clear_checked _ _ C)|exact Dir|reflexivity].
        apply Br; auto; [apply C|apply G|apply G].
      - rewrite tf_deny_term. split; [intros _; exact (fill_hits i g (on_gce p) Dd Dir Trg)|]. intros _.
        destruct (default_deny_fields g Dd) as (_ & _ & _ & [[N1 N2] [N3 N4] [N5 N6] N7 [N8 N9] N10]).
        assert (B : bare (clear (g_term g))) by (apply Br; auto; apply G).
        exists (clear (g_term g)). split.
        { unfold alternatives. change (t_source_address (clear (g_term g))) with (t_source_address (g_term g)). rewrite N1. cbn [some]. rewrite andb_false_r. left. reflexivity. }
        apply (bare_matches _ (on_gce p) B eq_refl).
        change (side_matches (t_source_address (g_term g)) (t_source_address_exclude (g_term g)) (p_src p) /\
          side_matches (t_destination_address (g_term g)) (t_destination_address_exclude (g_term g)) (p_dst p) /\
          any_or (t_protocol (g_term g)) (eq (p_proto p)) /\ ports_match (t_destination_port (g_term g)) (p_dport p) /\
          any_or (t_source_tag (g_term g)) (p_src_tag p) /\ any_or (t_destination_tag (g_term g)) (p_dst_tag p)).
        rewrite N1, N2, N3, N4, N6, N7, N8, N9.
        assert (S0 : forall x, side_matches [] [] x) by (intros x; split; [left; reflexivity|rewrite covered_nil; tauto]).
        split; [apply S0|]. split; [apply S0|]. split; [left; reflexivity|]. split; [left; reflexivity|]. split; left; reflexivity. }
    split.
    - intros [F M]. assert (R : tf_rendered today (g_term g) = true) by (apply tf_rendered_iff; split; [exact F|exact (tf_meant _ _ _ M Pl)]).
      split; [exact R|]. apply (K R), M.
    - intros [R M]. split; [apply tf_rendered_iff in R; apply R|]. apply (K R), M. }
  assert (Plain : plain_packet p) by exact (traffic_plain _ _ Trg).
  (* a rule of the network that speaks belongs to this header *)
  assert (Mine : forall name r w, declares out name r -> in_network (gi_network i) r -> tf_rule_says dir r p w -> In r (concat blocks)).
  { intros name r w D N S. assert (I : in_dicts (r1 ++ rs ++ r2) r) by (apply Dec; eauto).
    rewrite !in_dicts_app in I. destruct I as [I|[I|I]]; [|apply (holds_in _ _ _ Hold), I|].
    all: exfalso; destruct (Others r) as (h' & gs' & X & (Y & Z)); [rewrite in_dicts_app; auto|].
    all: destruct (Own h' gs' X) as [Q|Q]; [apply Q; exact (networks_agree _ _ _ Z N)|].
    all: apply Q; destruct S as (S & _); unfold dir in S; congruence. }
  assert (Known : forall r, In r (concat blocks) -> (exists name, declares out name r) /\ in_network (gi_network i) r).
  { intros r I. apply (holds_in _ _ _ Hold) in I. split; [apply Dec; rewrite !in_dicts_app; auto|]. exact (proj2 (tf_terms_header _ _ _ _ _ _ _ _ _ _ _ _ T I)). }
  assert (Says : forall x b r w, In x (tf_pairs i gs) -> block_of i today (snd x) b -> In r b -> tf_rule_says dir r p w -> matched x /\ t_action (g_term (fst x)) = [w]).
  { intros [g g'] b r w Ix B Ir S. cbn [fst snd] in *. destruct (Same g g' Ix) as (S1 & S2 & _). destruct (bk_sound _ _ _ _ B r p w Ir Plain S) as [X Y]. rewrite <- S2.
    split; [split; [cbn [fst]|exact X]|exact Y]. destruct (tf_rendered today (g_term g)) eqn:R; [reflexivity|]. rewrite (bk_none _ _ _ _ B ltac:(cbn [snd]; congruence)) in Ir. destruct Ir. }
  assert (Forward : forall w, policy_decides today dir gs p w -> tf_decides out (gi_network i) dir p w).
  { intros w [(a & g & b & E & (F & G & W) & N)|[N ->]].
    - left. rewrite <- (tf_pairs_fst i gs) in E. apply split_map in E. destruct E as (a' & x & b' & E & <- & <- & <-).
      assert (Ix : In x (tf_pairs i gs)) by (rewrite E; apply in_or_app; right; left; reflexivity).
      assert (M : matched x) by (apply (Eq x Ix); auto). rewrite E in F2. apply forall2_split in F2. destruct F2 as (ba & bx & bb & -> & Fa & Fx & Fb).
      rewrite concat_app in *. cbn [concat] in *. apply counted_app in Cnt. destruct Cnt as [_ Cnt]. apply counted_app in Cnt. destruct Cnt as [Cx Cb].
      destruct (bk_complete _ _ _ _ Fx (on_gce p)) as (r & w' & Ir & A & S); [|exact Trg|apply M|].
      { destruct x as [g g']. destruct (Same g g' Ix) as (S1 & _). cbn [snd]. rewrite S1. apply M. }
      change (tf_rule_says dir r p w') in S.
      assert (w' = w). { destruct x as [g g']. destruct (Same g g' Ix) as (_ & S2 & _). cbn [fst snd] in *. rewrite S2, W in A. injection A as A. symmetry. exact A. }
      subst w'.
      destruct (Known r) as [[name D] Nw]; [apply in_or_app; right; apply in_or_app; left; exact Ir|].
      destruct (counted_in _ _ _ Cx Ir) as (n & Pn & Bn). exists name, r, n. split; [exact D|]. split; [exact Nw|]. split; [exact S|]. split; [exact Pn|].
      intros name' r' v' k D' N' S' V' P'. left. pose proof (Mine _ _ _ D' N' S') as I'. rewrite !in_app_iff in I'. destruct I' as [I'|[I'|I']].
      + exfalso. destruct (forall2_concat _ _ _ _ Fa I') as (y & b1 & Iy & _ & Ib & By).
        assert (Iy' : In y (tf_pairs i gs)) by (rewrite E; apply in_or_app; left; exact Iy).
        destruct (Says y b1 r' v' Iy' By Ib S') as [My Ay]. apply V'. apply (N (fst y) v' (in_map fst _ _ Iy)).
        pose proof (proj2 (Eq y Iy') My) as [Q1 Q2]. auto.
      + exfalso. destruct (Says x bx r' v' Ix Fx I' S') as [_ Ay]. rewrite W in Ay. injection Ay as Ay. apply V'. symmetry. exact Ay.
      + destruct (counted_in _ _ _ Cb I') as (k' & K1 & K2). rewrite P' in K1. injection K1 as <-. lia.
    - right. split; [|reflexivity]. intros name r w D Nw S. pose proof (Mine _ _ _ D Nw S) as I.
      destruct (forall2_concat _ _ _ _ F2 I) as (x & b & Ix & _ & Ib & Bx). destruct (Says x b r w Ix Bx Ib S) as [Mx _].
      apply (Eq x Ix) in Mx. destruct Mx as [Q1 Q2]. apply (N (fst x)); [|exact Q1|exact Q2]. rewrite <- (tf_pairs_fst i gs). apply in_map, Ix. }
  split; [|apply Forward]. intros H.
  enough (Tot : exists w, policy_decides today dir gs p w) by (destruct Tot as [w W]; rewrite (tf_unique _ _ _ _ _ _ H (Forward w W)); exact W).
  assert (Dm : forall x, In x (tf_pairs i gs) -> matched x \/ ~ matched x).
  { intros x _. unfold matched. destruct (tf_rendered today (g_term (fst x))); [|right; intros [X _]; discriminate X].
    destruct (hit0_dec i dir (g_term (snd x)) (on_gce p) Trg) as [X|X]; [left; auto|right; intros [_ Y]; contradiction]. }
  destruct (first_or_none_ (tf_pairs i gs) matched Dm) as [(a & x & b & E & M & N)|N].
  - assert (Ix : In x (tf_pairs i gs)) by (rewrite E; apply in_or_app; right; left; reflexivity).
    assert (A : exists w, t_action (g_term (fst x)) = [w]) by (destruct x as [g g']; destruct M as [R _]; apply (Okg g g' Ix R)).
    destruct A as [w A]. exists w. left. exists (map fst a), (fst x), (map fst b). split; [rewrite <- (tf_pairs_fst i gs), E, map_app; reflexivity|].
    split; [pose proof (proj2 (Eq x Ix) M) as [Q1 Q2]; auto|]. intros g u Ig (Q1 & Q2 & _). apply in_map_iff in Ig. destruct Ig as (y & <- & Iy).
    exfalso. apply (N y Iy). apply (Eq y); [rewrite E; apply in_or_app; left; exact Iy|auto].
  - exists (implied dir). right. split; [|reflexivity]. intros g Ig Q1 Q2. rewrite <- (tf_pairs_fst i gs) in Ig. apply in_map_iff in Ig. destruct Ig as (x & <- & Ix).
    apply (N x Ix). apply (Eq x Ix). auto.
Qed.
