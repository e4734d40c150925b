(** Proofs about the Google Compute Engine generator: the rules of terms, headers and policies. *)
From Coq Require Import Lia ZifyBool ZifyNat Permutation.
From Verif Require Import SpecGce BaseFacts PyStrFacts IPFacts CollapseProofs ExcludeProofs PolicyProofs GenProofs GenProofs2 TextProofs CiscoProofs GceProofs GceRules.
Local Open Scope string_scope.
Local Open Scope list_scope.
Local Open Scope Z_scope.

(** ** Terms before and after Term.__init__ *)
Record fit (i : gce_info) (t : term) : Prop := {
  ft_action : exists a, t_action t = [a];
  ft_texts : ~ In "" (t_source_tag t ++ t_destination_tag t);
  ft_protocol : forall q, In q (t_protocol t) -> In q (map fst proto_map);
  ft_ports : forall r, In r (t_destination_port t) -> 0 <= fst r <= snd r;
  ft_aexc : t_address_exclude t = [];
  ft_src : excludable (t_source_address t) (t_source_address_exclude t);
  ft_srcs : no_ipv4_style (t_source_address t) (t_source_address_exclude t);
  ft_dst : excludable (t_destination_address t) (t_destination_address_exclude t);
  ft_dsts : no_ipv4_style (t_destination_address t) (t_destination_address_exclude t);
  ft_exclude : t_destination_address t = [] -> t_destination_address_exclude t = [];
  ft_tags : gi_direction i = "INGRESS" -> t_source_tag t <> [] ->
    (t_source_address t = [] /\ (gi_af i = "mixed" -> ~ In "icmpv6" (t_protocol t))) \/
    (forall v, In v (gce_families (gi_af i)) -> exists x, covered (t_source_address t) (v, x) /\ ~ covered (t_source_address_exclude t) (v, x)) }.
Definition who0 (dir : string) (t : term) (p : packet) : Prop :=
  if String.eqb dir "INGRESS"
  then (covered (t_source_address t) (p_src p) /\ ~ covered (t_source_address_exclude t) (p_src p)) \/ tag_hit (t_source_tag t) (p_src_tag p)
  else covered (t_destination_address t) (p_dst p) /\ ~ covered (t_destination_address_exclude t) (p_dst p).
Definition hit0 (dir : string) (t : term) (p : packet) : Prop :=
  who0 dir t p /\
  any_or (if String.eqb dir "INGRESS" then t_destination_tag t else t_source_tag t) (if String.eqb dir "INGRESS" then p_dst_tag p else p_src_tag p) /\
  protos_in t p /\ ports_match (t_destination_port t) (p_dport p).
Lemma style_kept inc exc r : left_of inc exc r -> no_ipv4_style inc exc -> no_ipv4_style r exc.
Proof.
  intros (_ & C & N) [[E H]|H].
  - left. split; [exact E|]. rewrite (N E). exact H.
  - right. intros x X. apply H. apply C in X. apply X.
Qed.
Lemma style_format inc exc : no_ipv4_style inc exc -> valid_list inc -> forall n, In n inc -> ipv4_format n = false.
Proof.
  intros S V n I. unfold valid_list in V. rewrite Forall_forall in V. specialize (V n I).
  destruct (ipv4_format n) eqn:E; [|reflexivity]. exfalso.
  destruct (nver n) eqn:Ev; [unfold ipv4_format in E; rewrite Ev in E; discriminate E|].
  apply ipv4_format_style in E; [|exact V|exact Ev]. destruct S as [[_ S]|S]; [exact (S n I Ev E)|].
  apply (S (naddr n)); [|exact E]. exists n. split; [exact I|]. rewrite <- Ev. apply covers_first, V.
Qed.
Lemma fit_init i t t1 ps : gce_init (gi_direction i) t = Ok (t1, ps) -> (gi_direction i = "INGRESS" \/ gi_direction i = "EGRESS") -> fit i t ->
  ps = map gconv (t_protocol t1) /\ fit i t1 /\ ready (gi_direction i) t1 /\ init_facts (gi_direction i) t t1 /\
  (forall p, hit (gi_direction i) t1 p <-> hit0 (gi_direction i) t p) /\ (forall p, hit0 (gi_direction i) t1 p <-> hit0 (gi_direction i) t p).
Proof.
  intros H Dir F. destruct (gce_init_facts _ _ _ _ H Dir (ft_aexc _ _ F) (ft_src _ _ F) (ft_dst _ _ F) (ft_exclude _ _ F)) as [P I].
  destruct (if_same _ _ _ I) as [S1 S2 S3 S4 S5 S6 S7 S8 S9 S10 S11 S12].
  destruct (if_src _ _ _ I) as (Ls1 & Ls2 & Ls3). destruct (if_dst _ _ _ I) as (Ld1 & Ld2 & Ld3).
  pose proof (style_kept _ _ _ (if_src _ _ _ I) (ft_srcs _ _ F)) as Ss. pose proof (style_kept _ _ _ (if_dst _ _ _ I) (ft_dsts _ _ F)) as Sd.
  split. { rewrite (gce_protocols _ (ft_protocol _ _ F)) in P. apply ok_inj in P. rewrite S7. symmetry. exact P. }
  split.
  { constructor; rewrite ?S2, ?S3, ?S4, ?S5, ?S7, ?S10, ?S11, ?S12; try (apply F; fail); try assumption.
    - intros E. destruct Dir as [D|D].
      + apply (ft_exclude _ _ F). destruct (some (t_destination_address t)) eqn:X; [|apply some_false, X]. exfalso.
        destruct (validate_direction (gi_direction i) t) as [|] eqn:V; [|unfold gce_init in H; destruct (term_protocols _ _); [cbn [bind] in H; rewrite V in H|]; discriminate H].
        unfold validate_direction in V. rewrite D in V. cbn [String.eqb Ascii.eqb Bool.eqb] in V. rewrite X in V.
        destruct (negb _ && negb _); discriminate V.
      + exfalso. exact (proj1 (proj2 (if_out _ _ _ I D)) E).
    - intros D T. destruct (ft_tags _ _ F D T) as [[A B]|A].
      + left. split; [exact (proj1 (proj2 (proj2 (if_in _ _ _ I D))) A)|exact B].
      + right. intros v V. destruct (A v V) as (x & X). exists x. split; [apply Ls2, X|apply X]. }
  split.
  { constructor; rewrite ?S2, ?S3, ?S4, ?S5, ?S7; try (apply F; fail).
    - split; [apply Ls1|apply Ld1].
    - intros n N. apply in_app_or in N. destruct N as [N|N]; [exact (style_format _ _ Ss (proj1 Ls1) n N)|exact (style_format _ _ Sd (proj1 Ld1) n N)].
    - intros D. destruct (if_in _ _ _ I D) as (A & B & C & E). split; [exact A|]. destruct B as [B|B]; [left; exact (E B)|right; exact B].
    - intros D. destruct (if_out _ _ _ I D) as (A & B & _). auto. }
  split; [exact I|].
  assert (X : forall p, hit (gi_direction i) t1 p <-> hit0 (gi_direction i) t p).
  { intros p. unfold hit, hit0, who, who0, protos_in. rewrite S3, S4, S5, S7.
    pose proof (Ls2 (p_src p)). pose proof (Ld2 (p_dst p)). destruct (String.eqb _ _); tauto. }
  split; [exact X|]. intros p. rewrite <- X. unfold hit, hit0, who, who0. rewrite S10, S11.
  pose proof (Ls2 (p_src p)). pose proof (Ld2 (p_dst p)). destruct (String.eqb _ _); tauto.
Qed.

(** ** The rules of a term *)
Definition right_family (i : gce_info) (t : term) (p : packet) (u : ver) : Prop :=
  ((gi_direction i = "INGRESS" /\ t_source_address t = []) \/ (fst (p_src p) = u /\ fst (p_dst p) = u)) /\
  (~ In (p_proto p) (foreign u) \/ ~ In (p_proto p) (t_protocol t)) /\
  ~ (gi_af i = "mixed" /\ u = V6 /\ gi_direction i = "INGRESS" /\ t_source_address t = []) /\
  (gi_direction i = "INGRESS" -> t_source_address t <> [] -> exists x, covered (t_source_address t) (u, x) /\ ~ covered (t_source_address_exclude t) (u, x)).
Lemma right_family_init i t t1 p u : init_facts (gi_direction i) t t1 -> right_family i t p u -> right_family i t1 p u.
Proof.
  intros I (A & B & C & D). destruct (if_same _ _ _ I) as [S1 S2 S3 S4 S5 S6 S7 S8 S9 S10 S11 S12].
  assert (E : gi_direction i = "INGRESS" -> t_source_address t = [] <-> t_source_address t1 = []).
  { intros X. destruct (if_in _ _ _ I X) as (_ & _ & Y & Z). split; [exact Y|]. intros W. destruct (some (t_source_address t)) eqn:V; [|apply some_false, V].
    apply some_true in V. exfalso. exact (Z V W). }
  unfold right_family. rewrite S7, S10. split; [|split; [exact B|split]].
  - destruct A as [[A1 A2]|A]; [left|right; exact A]. split; [exact A1|]. apply (E A1), A2.
  - intros (X1 & X2 & X3 & X4). apply C. split; [exact X1|]. split; [exact X2|]. split; [exact X3|]. apply (E X3), X4.
  - intros X Y. destruct D as (x & D); [exact X|intros Z; apply Y, (E X), Z|]. exists x. split; [|apply D]. apply (if_src _ _ _ I), D.
Qed.
Definition plain_packet (p : packet) : Prop := on_net (p_src p) /\ on_net (p_dst p) /\ known_proto p.
Lemma pass_says i mx : (gi_direction i = "INGRESS" \/ gi_direction i = "EGRESS") ->
  forall vs g comment count rules c' n', gce_pass i mx g vs comment count = Ok (rules, c', n') ->
  g_source_accounts g = [] -> g_target_accounts g = [] -> fit i (g_term g) ->
  (forall r, In r rules -> assoc "priority" r = g_priority g /\
     forall p w, plain_packet p -> rule_says (gi_direction i) r p w -> hit0 (gi_direction i) (g_term g) p /\ t_action (g_term g) = [w]) /\
  (forall p u, plain_packet p -> In u vs -> right_family i (g_term g) p u -> hit0 (gi_direction i) (g_term g) p ->
     exists r w, In r rules /\ t_action (g_term g) = [w] /\ rule_says (gi_direction i) r p w).
Proof.
  intros Dir. induction vs as [|v vs IH]; intros g comment count rules c' n' H A1 A2 F; cbn [gce_pass] in H.
  - apply ok_inj in H. apply pair_equal_spec in H. destruct H as [H _]. apply pair_equal_spec in H. destruct H as [<- _].
    split; [intros r []|intros p u _ []].
  - destruct (gce_init (gi_direction i) (g_term g)) as [[t1 ps]|] eqn:I; [|discriminate H]. cbn [bind fst snd] in H.
    destruct (fit_init i _ _ _ I Dir F) as (-> & F1 & R & IF & H1 & H0).
    match type of H with bind ?m _ = _ => destruct m as [rs|] eqn:C; [|discriminate H] end. cbn [bind] in H.
    match type of H with (if ?b then _ else _) = _ => destruct b; [discriminate H|] end.
    match type of H with bind ?m _ = _ => destruct m as [[[more c2] n2]|] eqn:M; [|discriminate H] end. cbn [bind fst snd] in H.
    apply ok_inj in H. apply pair_equal_spec in H. destruct H as [H _]. apply pair_equal_spec in H. destruct H as [<- _].
    destruct (IH _ _ _ _ _ _ M A1 A2 F1) as [J1 J2]. cbn [g_term g_priority] in J1, J2.
    destruct (if_same _ _ _ IF) as [S1 S2 S3 S4 S5 S6 S7 S8 S9 S10 S11 S12].
    split.
    + intros r Ir. apply in_app_or in Ir. destruct Ir as [Ir|Ir].
      * split; [apply (pass_shared_ _ _ _ _ _ _ _ _ C Dir A1 A2 R r Ir)|]. intros p w (P1 & P2 & P3) S.
        destruct (pass_sound_ _ _ _ _ _ _ _ _ C Dir A1 A2 R r p w Ir P1 P2 P3 S) as [X Y]. rewrite S2 in Y. split; [apply H1, X|exact Y].
      * destruct (J1 r Ir) as [K1 K2]. split; [exact K1|]. intros p w P S. destruct (K2 p w P S) as [X Y]. rewrite S2 in Y. split; [apply H0, X|exact Y].
    + intros p u P U Rf Hit. destruct U as [<-|U].
      * destruct P as (P1 & P2 & P3). pose proof (right_family_init _ _ _ _ _ IF Rf) as (A & B & D & E).
        destruct (pass_complete_ _ _ _ _ _ _ _ _ C Dir A1 A2 R p P1 P2 P3 A B) as (r & w & X & Y & Z).
        -- intros (M1 & M2 & M3). apply D. apply andb_true_iff in M1. destruct M1 as [M1 M4]. apply String.eqb_eq in M1.
           destruct v; [discriminate M4|]. auto.
        -- intros X Y Z. destruct (E X Y) as (x & W & _). apply (gce_addresses_covered v) in W; [|intros n N; apply (rd_style _ _ R), in_or_app; left; exact N].
           rewrite Z in W. apply covered_nil in W. exact W.
        -- apply H1, Hit.
        -- exists r, w. rewrite S2 in Y. split; [apply in_or_app; left; exact X|]. auto.
      * destruct (J2 p u P U (right_family_init _ _ _ _ _ IF Rf) (proj2 (H0 p) Hit)) as (r & w & X & Y & Z).
        exists r, w. rewrite S2 in Y. split; [apply in_or_app; right; exact X|]. auto.
Qed.
Lemma family_found i t p : fit i t -> (gi_direction i = "INGRESS" \/ gi_direction i = "EGRESS") -> gce_traffic i p -> hit0 (gi_direction i) t p ->
  exists u, In u (gce_families (gi_af i)) /\ right_family i t p u.
Proof.
  intros F Dir ((v & V & T1 & T2 & T3 & T4 & T5) & _) (W & _ & Pr & _).
  assert (Norm : ~ (gi_direction i = "INGRESS" /\ t_source_address t = []) ->
    (gi_direction i = "INGRESS" -> exists x, covered (t_source_address t) (v, x) /\ ~ covered (t_source_address_exclude t) (v, x)) ->
    exists u, In u (gce_families (gi_af i)) /\ right_family i t p u).
  { intros A B. exists v. split; [exact V|]. split; [right; auto|]. split; [left; exact T5|]. split; [tauto|]. intros D _. exact (B D). }
  destruct Dir as [D|D].
  - unfold who0 in W. rewrite D in W. cbn [String.eqb Ascii.eqb Bool.eqb] in W.
    destruct (some (t_source_address t)) eqn:Es.
    + apply some_true in Es. apply Norm; [tauto|]. intros _. destruct (some (t_source_tag t)) eqn:Et.
      * apply some_true in Et. destruct (ft_tags _ _ F D Et) as [[A _]|A]; [contradiction|exact (A v V)].
      * apply some_false in Et. rewrite Et in W. destruct W as [W|(s & [] & _)]. exists (snd (p_src p)). rewrite <- T1. rewrite <- surjective_pairing. exact W.
    + apply some_false in Es.
      assert (Et : t_source_tag t <> []).
      { destruct W as [[W _]|(s & W & _)]; [rewrite Es in W; apply covered_nil in W; destruct W|]. intros X. rewrite X in W. destruct W. }
      destruct (ft_tags _ _ F D Et) as [[_ A]|A].
      * destruct (String.eqb (gi_af i) "mixed") eqn:Em.
        -- apply String.eqb_eq in Em. exists V4. split; [rewrite Em; left; reflexivity|]. split; [left; auto|]. split.
           ++ destruct (str_in (p_proto p) (foreign V4)) eqn:X.
              ** right. apply str_in_spec in X. destruct X as [X|[]]. rewrite <- X. exact (A Em).
              ** left. intros Y. apply str_in_spec in Y. congruence.
           ++ split; [intros (_ & X & _); discriminate X|]. intros _ X. contradiction.
        -- exists v. split; [exact V|]. split; [left; auto|]. split; [left; exact T5|].
           split; [intros (X & _); rewrite X in Em; discriminate Em|]. intros _ X. contradiction.
      * destruct (A v V) as (x & X & _). rewrite Es in X. apply covered_nil in X. destruct X.
  - apply Norm; [intros [X _]; rewrite D in X; discriminate X|]. intros X. rewrite D in X. discriminate X.
Qed.
Lemma traffic_plain i p : gce_traffic i p -> plain_packet p.
Proof.
  intros ((v & _ & T1 & T2 & T3 & T4 & _) & K1 & K2 & _). unfold plain_packet, on_net, known_proto. rewrite T1, T2. auto.
Qed.
Record checked (dir : string) (t : term) : Prop := {
  ck_sport : t_source_port t = [];
  ck_sexc : t_source_address t = [] -> t_source_address_exclude t = [];
  ck_in : dir = "INGRESS" -> t_destination_address t = [] /\ (t_source_address t <> [] \/ t_source_tag t <> []);
  ck_out : dir = "EGRESS" -> t_source_address t = [] /\ t_destination_address t <> [] /\ tags_present (t_destination_tag t) = false }.
Lemma init_checked dir t x : gce_init dir t = Ok x -> checked dir t.
Proof.
  intros H. unfold gce_init in H. destruct (term_protocols _ _); [|discriminate H]. cbn [bind] in H.
  destruct (validate_direction dir t) as [u|] eqn:V; [|discriminate H]. cbn [bind] in H.
  destruct (some (t_source_address_exclude t) && negb (some (t_source_address t))) eqn:E1; [discriminate H|].
  destruct (_ && String.eqb dir "INGRESS"); [discriminate H|].
  destruct (some (t_source_port t)) eqn:E3; [discriminate H|]. clear H. constructor.
  - apply some_false, E3.
  - intros E. rewrite E in E1. cbn [some negb] in E1. rewrite andb_true_r in E1. apply some_false, E1.
  - intros ->. unfold validate_direction in V. cbn [String.eqb Ascii.eqb Bool.eqb] in V.
    destruct (negb (some (t_source_address t)) && negb (some (t_source_tag t))) eqn:B; [discriminate V|].
    destruct (some (t_destination_address t)) eqn:B2; [discriminate V|]. apply some_false in B2. split; [exact B2|].
    destruct (some (t_source_address t)) eqn:B3; [left; apply some_true, B3|]. right. apply some_true. cbn in B. destruct (some (t_source_tag t)); [reflexivity|discriminate B].
  - intros ->. unfold validate_direction in V. cbn [String.eqb Ascii.eqb Bool.eqb] in V.
    destruct (some (t_source_address t)) eqn:B; [discriminate V|]. apply some_false in B.
    destruct (some (t_destination_address t)) eqn:B2; [|discriminate V]. apply some_true in B2. cbn [negb] in V.
    destruct (tags_present (t_destination_tag t)) eqn:B3; [discriminate V|]. auto.
Qed.
(** ** The rules of a list of terms *)
Definition rendered (today : Z) (t : term) : bool := negb (expired today t) && active_on "gce" t.
Lemma terms_say i mx today : (gi_direction i = "INGRESS" \/ gi_direction i = "EGRESS") ->
  forall gs hc names count rules n', gce_terms i mx today hc names count gs = Ok (rules, n') ->
  (forall g, In g gs -> rendered today (g_term g) = true -> t_stateless_reply (g_term g) = false) ->
  (forall g, In g gs -> rendered today (g_term g) = true -> g_source_accounts g = [] /\ g_target_accounts g = [] /\ fit i (g_term g)) ->
  (forall g, In g gs -> rendered today (g_term g) = true -> t_option (g_term g) = [] /\ checked (gi_direction i) (g_term g)) /\
  (forall r, In r rules -> exists g, In g gs /\ rendered today (g_term g) = true /\ assoc "priority" r = g_priority g /\
     forall p w, plain_packet p -> rule_says (gi_direction i) r p w -> hit0 (gi_direction i) (g_term g) p /\ t_action (g_term g) = [w]) /\
  (forall g p, In g gs -> rendered today (g_term g) = true -> gce_traffic i p -> hit0 (gi_direction i) (g_term g) p ->
     exists r w, In r rules /\ t_action (g_term g) = [w] /\ assoc "priority" r = g_priority g /\ rule_says (gi_direction i) r p w).
Proof.
  intros Dir. induction gs as [|g gs IH]; intros hc names count rules n' H Sr Ok'; cbn [gce_terms] in H.
  - apply ok_inj in H. apply pair_equal_spec in H. destruct H as [<- _]. split; [intros g []|]. split; [intros r []|intros g p []].
  - assert (IHs := fun hc nm ct rs n' X => IH hc nm ct rs n' X (fun y Y => Sr y (or_intror Y)) (fun y Y => Ok' y (or_intror Y))). clear IH.
    assert (Skip : rendered today (g_term g) = false -> forall hc nm ct rs m, gce_terms i mx today hc nm ct gs = Ok (rs, m) -> rs = rules ->
      (forall y, In y (g :: gs) -> rendered today (g_term y) = true -> t_option (g_term y) = [] /\ checked (gi_direction i) (g_term y)) /\
      (forall r, In r rules -> exists y, In y (g :: gs) /\ rendered today (g_term y) = true /\ assoc "priority" r = g_priority y /\
         forall p w, plain_packet p -> rule_says (gi_direction i) r p w -> hit0 (gi_direction i) (g_term y) p /\ t_action (g_term y) = [w]) /\
      (forall y p, In y (g :: gs) -> rendered today (g_term y) = true -> gce_traffic i p -> hit0 (gi_direction i) (g_term y) p ->
         exists r w, In r rules /\ t_action (g_term y) = [w] /\ assoc "priority" r = g_priority y /\ rule_says (gi_direction i) r p w)).
    { intros Rn hc' nm ct rs m X <-. destruct (IHs _ _ _ _ _ X) as (B0 & B1 & B2). split; [|split].
      - intros y [<-|Y] Z; [congruence|exact (B0 y Y Z)].
      - intros r R. destruct (B1 r R) as (y & Y & Z). exists y. split; [right; exact Y|exact Z].
      - intros y p [<-|Y] Z; [congruence|exact (B2 y p Y Z)]. }
    destruct (t_stateless_reply (g_term g)) eqn:St.
    { refine (Skip _ _ _ _ _ _ H eq_refl). destruct (rendered today (g_term g)) eqn:Rn; [|reflexivity].
      rewrite (Sr g (or_introl eq_refl) Rn) in St. discriminate St. }
    match type of H with bind ?m _ = _ => destruct m as [name|] eqn:Nm; [|discriminate H] end. cbn [bind] in H. clear Nm.
    destruct (str_in name names); [discriminate H|].
    destruct (expired today (g_term g)) eqn:Ex.
    { apply (Skip ltac:(unfold rendered; rewrite Ex; reflexivity) _ _ _ _ _ H eq_refl). }
    destruct (some (t_option (g_term g))) eqn:Op; [discriminate H|]. apply some_false in Op.
    destruct (active_on "gce" (g_term g)) eqn:Ac; cbn [negb] in H.
    2:{ apply (Skip ltac:(unfold rendered; rewrite Ac, andb_false_r; reflexivity) _ _ _ _ _ H eq_refl). }
    assert (Rn : rendered today (g_term g) = true) by (unfold rendered; rewrite Ex, Ac; reflexivity). clear Skip.
    match type of H with bind ?m _ = _ => destruct m as [[[rs c2] n2]|] eqn:Ps; [|discriminate H] end. cbn [bind fst snd] in H.
    match type of H with bind ?m _ = _ => destruct m as [[more n3]|] eqn:Mr; [|discriminate H] end. cbn [bind fst snd] in H.
    apply ok_inj in H. apply pair_equal_spec in H. destruct H as [<- _].
    destruct (Ok' g (or_introl eq_refl) Rn) as (A1 & A2 & F).
    assert (F' : fit i (set_name name (g_term g))) by (destruct F; constructor; assumption).
    destruct (pass_says i mx Dir _ _ _ _ _ _ _ Ps A1 A2 F') as [P1 P2].
    destruct (IHs _ _ _ _ _ Mr) as (B0 & B1 & B2). cbn [g_term g_priority] in P1, P2.
    split; [|split].
    + intros y [<-|Y] Z; [|exact (B0 y Y Z)]. split; [exact Op|].
      destruct (gce_families (gi_af i)) as [|v0 vs] eqn:Fa.
      { unfold gce_families in Fa. destruct (String.eqb _ "mixed"); [discriminate Fa|]. destruct (String.eqb _ "inet6"); discriminate Fa. }
      cbn [gce_pass] in Ps. destruct (gce_init _ _) as [x|] eqn:Ci in Ps; [|discriminate Ps]. apply init_checked in Ci. cbn [g_term] in Ci. destruct Ci. constructor; assumption.
    + intros r R. apply in_app_or in R. destruct R as [R|R].
      * exists g. split; [left; reflexivity|]. split; [exact Rn|]. exact (P1 r R).
      * destruct (B1 r R) as (y & Y & Z). exists y. split; [right; exact Y|exact Z].
    + intros y p [<-|Y] Z T Hi.
      * destruct (family_found i _ p F Dir T Hi) as (u & U1 & U2).
        destruct (P2 p u (traffic_plain _ _ T) U1 U2 Hi) as (r & w & R & W & S). exists r, w. split; [apply in_or_app; left; exact R|].
        split; [exact W|]. split; [apply (P1 r R)|exact S].
      * destruct (B2 y p Y Z T Hi) as (r & w & R & W). exists r, w. split; [apply in_or_app; right; exact R|exact W].
Qed.
