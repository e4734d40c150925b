(** Proofs about the Terraform generator: terms, headers and policies. *)
From Coq Require Import Lia ZifyBool ZifyNat Permutation.
From Verif Require Import SpecTf BaseFacts PyStrFacts IPFacts CollapseProofs ExcludeProofs PolicyProofs GenProofs GenProofs2 TextProofs CiscoProofs GceProofs GceRules GcePolicy GceDecide GceNames TfRules.
Local Open Scope string_scope.
Local Open Scope list_scope.
Local Open Scope Z_scope.

(** ** Rules name the direction and the network of their header *)
Lemma tf_dict_header dir network m6 comment index g t d : tf_dict dir network m6 comment index g t = Ok d -> of_header dir network d.
Proof.
  intros H. unfold tf_dict in H.
  set (d0 := [("description", JStr (join " " comment)); ("name", JStr (t_name t)); ("direction", JStr dir); ("priority", JNum index)]) in H.
  set (d1 := if is_empty network then d0 else jset "name" (JStr (append (last_part network) (append "-" (t_name t)))) (jset "network" (JStr network) d0)) in H.
  set (d2 := if m6 then jset "name" (JStr (append (rule_name d1) "-v6")) d1 else d1) in H.
  assert (D2 : of_header dir network d2).
  { apply (of_header_keeps dir network d1).
    - unfold of_header, in_network, d1. destruct (is_empty network); [split; reflexivity|]. split; fields; reflexivity.
    - unfold d2. destruct m6; [apply keeps_set; discriminate|apply keeps_refl]. }
  clearbody d2. clear d1 d0. cbv zeta in H.
  destruct (30 <? _)%nat; [discriminate H|]. destruct (70 <? _)%nat; [discriminate H|]. destruct (_ || _)%bool; [discriminate H|].
  match type of H with (if ?b then _ else _) = _ => destruct b; [discriminate H|] end. apply ok_inj in H. subst d.
  eapply of_header_keeps; [exact D2|].
  repeat match goal with
  | |- keeps _ (match g_priority g with Some _ => _ | None => _ end) => destruct (g_priority g)
  | |- keeps _ (if ?b then _ else _) => apply keeps_if
  | |- keeps _ (jset _ _ _) => eapply keeps_trans; [|apply keeps_set; discriminate]
  end; try apply keeps_refl.
Qed.
Lemma tf_chunks_keep key several d r : key <> "direction" -> key <> "network" -> forall cs i index, In r (tf_chunks key several i index d cs) -> keeps d r.
Proof.
  intros K1 K2. induction cs as [|c cs IH]; intros i index I; [destruct I|]. destruct I as [<-|I]; [|exact (IH _ _ I)].
  eapply keeps_trans; [|apply keeps_set; discriminate]. eapply keeps_trans; [|apply keeps_set; assumption].
  destruct several; [|apply keeps_refl]. destruct (assoc "name" d) as [[s| | | |]|]; try apply keeps_refl. apply keeps_set; discriminate.
Qed.
Lemma tf_rules_header dir network v m6 comment index g t ps rules r : tf_rules dir network v m6 comment index g t ps = Ok (Some rules) -> In r rules -> of_header dir network r.
Proof.
  intros H I. unfold tf_rules in H. destruct (tf_dict _ _ _ _ _ _ _) as [d|] eqn:E; [|discriminate H]. cbn [bind] in H.
  apply tf_dict_header in E. cbv zeta in H.
  repeat match type of H with (if ?b then _ else _) = _ => destruct b; [discriminate H|] end.
  destruct (t_action t) as [|a l]; [discriminate H|]. destruct (assoc a tf_actions) as [key|] eqn:Ea; [|discriminate H].
  match type of H with (if ?b then _ else _) = _ => destruct b; [discriminate H|] end. apply ok_inj in H.
  match type of H with Some ?x = _ => assert (X : x = rules) by congruence end. subst rules. clear H.
  assert (K : key <> "direction" /\ key <> "network").
  { apply assoc_in in Ea. destruct Ea as [Ea|[Ea|[]]]; injection Ea as _ <-; split; discriminate. }
  match type of I with In _ (if _ then tf_addresses _ _ _ ?x else _) => assert (D : of_header dir network x) end.
  { eapply of_header_keeps; [exact E|]. eapply keeps_trans; [|apply keeps_set; apply K]. apply keeps_if; [apply keeps_set; discriminate|apply keeps_refl]. }
  destruct (some _) in I; [apply tf_chunks_keep in I; [exact (of_header_keeps _ _ _ _ D I)|discriminate|discriminate]|].
  destruct (some _) in I; [apply tf_chunks_keep in I; [exact (of_header_keeps _ _ _ _ D I)|discriminate|discriminate]|].
  destruct I as [<-|[]]. exact D.
Qed.
Lemma by_name_in rules name r : assoc name (by_name rules) = Some (JDict r) -> In r rules.
Proof.
  unfold by_name. enough (K : forall d, assoc name (fold_left (fun d r => jset (rule_name r) (JDict r) d) rules d) = Some (JDict r) ->
    In r rules \/ assoc name d = Some (JDict r)) by (intros H; destruct (K [] H) as [I|X]; [exact I|discriminate X]).
  induction rules as [|x rules IH]; intros d H; cbn [fold_left] in H; [right; exact H|].
  destruct (IH _ H) as [I|A]; [left; right; exact I|]. rewrite assoc_jset in A. destruct (String.eqb name (rule_name x)); [|right; exact A].
  injection A as <-. left. left. reflexivity.
Qed.
Definition in_dicts (ds : list rule_dict) (r : rule_dict) : Prop := exists d name, In d ds /\ assoc name d = Some (JDict r).
Lemma in_dicts_app a b r : in_dicts (a ++ b) r <-> in_dicts a r \/ in_dicts b r.
Proof.
  split.
  - intros (d & n & I & A). apply in_app_or in I. destruct I as [I|I]; [left|right]; exists d, n; auto.
  - intros [(d & n & I & A)|(d & n & I & A)]; exists d, n; (split; [apply in_or_app|]); auto.
Qed.
Lemma tf_convert_header dir network v m6 comment index g t ps ds r : tf_convert dir network v m6 comment index g t ps = Ok ds -> in_dicts ds r -> of_header dir network r.
Proof.
  intros H (d & name & I & A). unfold tf_convert in H. destruct (tf_rules _ _ _ _ _ _ _ _ _) as [[rules|]|] eqn:T; [| |discriminate H]; cbn [bind] in H; apply ok_inj in H; subst ds.
  - destruct I as [<-|[]]. apply by_name_in in A. exact (tf_rules_header _ _ _ _ _ _ _ _ _ _ _ T A).
  - destruct I.
Qed.
Ltac four H := apply ok_inj in H; apply pair_equal_spec in H; destruct H as [H ?Hix]; apply pair_equal_spec in H; destruct H as [H ?Hct]; apply pair_equal_spec in H; destruct H as [H ?Hcm].
Lemma tf_pass_header i mx r : forall vs g comment count index ds c' n' x', tf_pass i mx g vs comment count index = Ok (ds, c', n', x') -> in_dicts ds r ->
  of_header (gi_direction i) (gi_network i) r.
Proof.
  induction vs as [|v vs IH]; intros g comment count index ds c' n' x' H I; cbn [tf_pass] in H.
  - four H. subst ds. destruct I as (d & n & [] & _).
  - destruct (tf_init _ _) as [tp|]; [|discriminate H]. cbn [bind] in H.
    match type of H with bind ?m _ = _ => destruct m as [rs|] eqn:C; [|discriminate H] end. cbn [bind] in H.
    match type of H with (if ?b then _ else _) = _ => destruct b; [discriminate H|] end.
    match type of H with bind ?m _ = _ => destruct m as [[[[more c2] n2] x2]|] eqn:M; [|discriminate H] end. cbn [bind fst snd] in H.
    four H. subst ds. apply in_dicts_app in I. destruct I as [I|I]; [exact (tf_convert_header _ _ _ _ _ _ _ _ _ _ _ C I)|exact (IH _ _ _ _ _ _ _ _ M I)].
Qed.
Lemma tf_terms_header i mx today r : forall gs hc names count index ds n' x', tf_terms i mx today hc names count index gs = Ok (ds, n', x') -> in_dicts ds r ->
  of_header (gi_direction i) (gi_network i) r.
Proof.
  induction gs as [|g gs IH]; intros hc names count index ds n' x' H I; cbn [tf_terms] in H.
  - apply ok_inj in H. apply pair_equal_spec in H. destruct H as [H _]. apply pair_equal_spec in H. destruct H as [<- _]. destruct I as (d & n & [] & _).
  - destruct (t_stateless_reply _); [exact (IH _ _ _ _ _ _ _ H I)|].
    match type of H with bind ?m _ = _ => destruct m as [name|]; [|discriminate H] end. cbn [bind] in H.
    destruct (str_in name names); [discriminate H|]. destruct (expired _ _); [exact (IH _ _ _ _ _ _ _ H I)|].
    destruct (some _) in H; [discriminate H|]. destruct (active_on _ _); cbn [negb] in H; [|exact (IH _ _ _ _ _ _ _ H I)].
    match type of H with bind ?m _ = _ => destruct m as [[[[rs c2] n2] x2]|] eqn:Ps; [|discriminate H] end. cbn [bind fst snd] in H.
    match type of H with bind ?m _ = _ => destruct m as [[[more n3] x3]|] eqn:Mr; [|discriminate H] end. cbn [bind fst snd] in H.
    apply ok_inj in H. apply pair_equal_spec in H. destruct H as [H _]. apply pair_equal_spec in H. destruct H as [<- _].
    apply in_dicts_app in I. destruct I as [I|I]; [exact (tf_pass_header _ _ _ _ _ _ _ _ _ _ _ _ Ps I)|exact (IH _ _ _ _ _ _ _ Mr I)].
Qed.
Definition header_info (order : list string) (h : gce_header) : gce_info := gce_options order (gh_options h).
Lemma tf_translate_split order today : forall fs mx count index ds, tf_translate order today mx count index fs = Ok ds ->
  forall before h gs after, fs = before ++ (h, gs) :: after ->
  exists mx' count' index' rs n' x' r1 r2, tf_terms (header_info order h) mx' today (gh_comment h) [] count' index' (tf_fill_last (header_info order h) gs) = Ok (rs, n', x') /\
    gi_network (header_info order h) <> "" /\ ds = r1 ++ rs ++ r2 /\
    (forall r, in_dicts (r1 ++ r2) r -> exists h' gs', In (h', gs') (before ++ after) /\
       of_header (gi_direction (header_info order h')) (gi_network (header_info order h')) r).
Proof.
  assert (Own : forall fs mx count index ds, tf_translate order today mx count index fs = Ok ds -> forall r, in_dicts ds r -> exists h' gs', In (h', gs') fs /\
     of_header (gi_direction (header_info order h')) (gi_network (header_info order h')) r).
  { induction fs as [|[h gs] fs IH]; intros mx count index ds H r I; cbn [tf_translate] in H.
    - apply ok_inj in H. subst. destruct I as (d & n & [] & _).
    - destruct (is_empty _) in H; [discriminate H|]. destruct (negb (some gs)); [discriminate H|].
      match type of H with bind ?m _ = _ => destruct m as [[[rs n] x]|] eqn:T; [|discriminate H] end. cbn [bind fst snd] in H.
      match type of H with bind ?m _ = _ => destruct m as [more|] eqn:M; [|discriminate H] end. cbn [bind] in H. apply ok_inj in H. subst ds.
      apply in_dicts_app in I. destruct I as [I|I].
      + exists h, gs. split; [left; reflexivity|]. exact (tf_terms_header _ _ _ _ _ _ _ _ _ _ _ _ T I).
      + destruct (IH _ _ _ _ M r I) as (h' & gs' & X & Y). exists h', gs'. split; [right; exact X|exact Y]. }
  induction fs as [|[h0 gs0] fs IH]; intros mx count index ds H before h gs after E; [destruct before; discriminate E|]. cbn [tf_translate] in H.
  destruct (is_empty _) eqn:En in H; [discriminate H|].
  destruct (some gs0) eqn:Sg; cbn [negb] in H; [|discriminate H]. apply some_true in Sg.
  match type of H with bind ?m _ = _ => destruct m as [[[rs n] x]|] eqn:T; [|discriminate H] end. cbn [bind fst snd] in H.
  match type of H with bind ?m _ = _ => destruct m as [more|] eqn:M; [|discriminate H] end. cbn [bind] in H. apply ok_inj in H. subst ds.
  destruct before as [|b0 before]; cbn [app] in E.
  - injection E as -> -> ->.
    eexists. eexists. eexists. exists rs. eexists. eexists. exists [], more. split; [exact T|]. split; [intros X; unfold header_info in X; rewrite X in En; discriminate En|].
    split; [reflexivity|]. intros r I. exact (Own _ _ _ _ _ M r I).
  - injection E as <- E2. destruct (IH _ _ _ _ M before h gs after E2) as (mx' & ct' & ix' & rs' & n' & x' & r1 & r2 & T' & Sg' & -> & O).
    exists mx', ct', ix', rs', n', x', (rs ++ r1), r2. split; [exact T'|]. split; [exact Sg'|]. split; [rewrite app_assoc; reflexivity|].
    intros r I. rewrite <- app_assoc in I. apply in_dicts_app in I. destruct I as [I|I].
    + exists h0, gs0. split; [left; reflexivity|]. exact (tf_terms_header _ _ _ _ _ _ _ _ _ _ _ _ T I).
    + destruct (O r I) as (h' & gs' & X & Y). exists h', gs'. split; [right; exact X|exact Y].
Qed.

(** ** The rules of a term *)
Lemma forall2_left {A B} (R : A -> B -> Prop) l m x : Forall2 R l m -> In x l -> exists y, In y m /\ R x y.
Proof. induction 1 as [|a b l m H F IH]; intros I; [destruct I|]. destruct I as [<-|I]; [exists b; split; [left; reflexivity|exact H]|]. destruct (IH I) as (y & Y & Z). exists y. split; [right; exact Y|exact Z]. Qed.
Lemma forall2_right {A B} (R : A -> B -> Prop) l m y : Forall2 R l m -> In y m -> exists x, In x l /\ R x y.
Proof. induction 1 as [|a b l m H F IH]; intros I; [destruct I|]. destruct I as [<-|I]; [exists a; split; [left; reflexivity|exact H]|]. destruct (IH I) as (x & X & Z). exists x. split; [right; exact X|exact Z]. Qed.
Definition sound_for (dir : string) (t : term) (rules : list rule_dict) : Prop :=
  forall r p w, In r rules -> plain_packet p -> tf_rule_says dir r p w -> hit0 dir t p /\ t_action t = [w].
Lemma tf_pass_says i mx : (gi_direction i = "INGRESS" \/ gi_direction i = "EGRESS") ->
  forall vs g comment count index ds c' n' x', tf_pass i mx g vs comment count index = Ok (ds, c', n', x') ->
  g_source_accounts g = [] -> g_target_accounts g = [] -> fit i (g_term g) -> no_own_priority g ->
  exists rules, holds ds rules /\ counted index rules /\ x' = index + Zlen rules /\ sound_for (gi_direction i) (g_term g) rules /\
  (forall p u, plain_packet p -> In u vs -> right_family i (g_term g) p u -> hit0 (gi_direction i) (g_term g) p ->
     exists r w, In r rules /\ t_action (g_term g) = [w] /\ tf_rule_says (gi_direction i) r p w).
Proof.
  intros Dir. induction vs as [|v vs IH]; intros g comment count index ds c' n' x' H A1 A2 F Np; cbn [tf_pass] in H.
  - four H. subst ds x'. exists []. split; [exact holds_nil|]. split; [exact Logic.I|]. split; [cbn; lia|]. split; [intros r p w []|intros p u _ []].
  - destruct (tf_init (gi_direction i) (g_term g)) as [[t1 ps]|] eqn:I0; [|discriminate H]. cbn [bind fst snd] in H.
    destruct (tf_init_gce _ _ _ I0) as [I _]; [intros X; apply (ft_texts _ _ F), in_or_app; right; exact X|]. clear I0.
    destruct (fit_init i _ _ _ I Dir F) as (-> & F1 & R & IF & H1 & H0). pose proof (init_checked _ _ _ I) as Ck.
    match type of H with bind ?m _ = _ => destruct m as [rs|] eqn:C; [|discriminate H] end. cbn [bind] in H.
    match type of H with (if ?b then _ else _) = _ => destruct b; [discriminate H|] end.
    match type of H with bind ?m _ = _ => destruct m as [[[[more c2] n2] x2]|] eqn:M; [|discriminate H] end. cbn [bind fst snd] in H.
    four H. subst ds x'.
    assert (Np1 : g_priority g = None \/ t_source_address t1 <> [] \/ t_destination_address t1 <> []).
    { destruct Dir as [D|D]; [|right; right; apply (if_out _ _ _ IF D)].
      destruct Np as [Np|[Np|Np]]; [left; exact Np|right; left; apply (if_in _ _ _ IF D), Np|]. exfalso. apply Np, (ck_in _ _ Ck D). }
    destruct (IH _ _ _ _ _ _ _ _ M A1 A2 F1 Np1) as (mr & J0 & J1 & J2 & J3 & J4). cbn [g_term g_priority] in J3, J4.
    destruct (if_same _ _ _ IF) as [S1 S2 S3 S4 S5 S6 S7 S8 S9 S10 S11 S12].
    unfold tf_convert in C. destruct (tf_rules _ _ _ _ _ _ _ _ _) as [o|] eqn:T; [|discriminate C]. cbn [bind] in C. apply ok_inj in C.
    destruct (rules_like _ _ _ _ _ _ _ _ _ _ T A1 A2 (ft_texts _ _ F1) Np1) as (qs & Cq & O).
    assert (K : exists rules, holds rs rules /\ counted index rules /\ fold_left (fun n d => n + Zlen d) rs index = index + Zlen rules /\ Forall2 like rules qs).
    { destruct o as [rules|].
      - destruct O as [O1 O2]. exists rules.
        assert (N : NoDup (map rule_name rules)).
        { replace (map rule_name rules) with (map rule_name qs).
          - eapply one_pass_nodup. exact (convert_names _ _ _ _ _ _ _ _ _ Cq).
          - clear -O1. induction O1 as [|r q rules qs L F IH]; [reflexivity|]. cbn [map]. rewrite IH, (like_name _ _ L). reflexivity. }
        rewrite (by_name_map _ N) in C. subst rs. split.
        { exists [rules]. split; [reflexivity|]. split; [apply app_nil_r|]. intros b [<-|[]]. exact N. }
        split; [exact O2|]. split; [|exact O1]. cbn [fold_left]. unfold Zlen, dict_of. rewrite map_length. reflexivity.
      - subst rs qs. exists []. split; [exact holds_nil|]. split; [exact Logic.I|]. split; [cbn; lia|constructor]. }
    destruct K as (rules & K1 & K2 & K3 & K4). rewrite K3 in J1, J2. exists (rules ++ mr).
    assert (A1' : g_source_accounts (without_priority g) = []) by exact A1. assert (A2' : g_target_accounts (without_priority g) = []) by exact A2.
    split; [exact (holds_app _ _ _ _ K1 J0)|]. split; [apply counted_app; split; assumption|].
    split; [rewrite J2; unfold Zlen; rewrite app_length; lia|]. split.
    + intros r p w Ir P S. apply in_app_or in Ir. destruct Ir as [Ir|Ir].
      * destruct (forall2_left _ _ _ _ K4 Ir) as (q & Iq & L). apply (like_says _ _ _ _ _ L) in S. destruct P as (P1 & P2 & P3).
        destruct (pass_sound_ _ _ _ _ _ _ _ _ Cq Dir A1' A2' R q p w Iq P1 P2 P3 S) as [X Y]. rewrite S2 in Y. split; [apply H1, X|exact Y].
      * destruct (J3 r p w Ir P S) as [X Y]. rewrite S2 in Y. split; [apply H0, X|exact Y].
    + intros p u P U Rf Hit. destruct U as [<-|U].
      * destruct P as (P1 & P2 & P3). pose proof (right_family_init _ _ _ _ _ IF Rf) as (A & B & D & E).
        destruct (pass_complete_ _ _ _ _ _ _ _ _ Cq Dir A1' A2' R p P1 P2 P3 A B) as (q & w & X & Y & Z).
        -- intros (M1 & M2 & M3). apply D. apply andb_true_iff in M1. destruct M1 as [M1 M4]. apply String.eqb_eq in M1.
           destruct v; [discriminate M4|]. auto.
        -- intros X Y Z. destruct (E X Y) as (x & W & _). apply (gce_addresses_covered v) in W; [|intros n N; apply (rd_style _ _ R), in_or_app; left; exact N].
           rewrite Z in W. apply covered_nil in W. exact W.
        -- apply H1, Hit.
        -- destruct (forall2_right _ _ _ _ K4 X) as (r & Ir & L). exists r, w. rewrite S2 in Y. split; [apply in_or_app; left; exact Ir|].
           split; [exact Y|]. apply (like_says _ _ _ _ _ L). exact Z.
      * destruct (J4 p u P U (right_family_init _ _ _ _ _ IF Rf) (proj2 (H0 p) Hit)) as (r & w & X & Y & Z).
        exists r, w. rewrite S2 in Y. split; [apply in_or_app; right; exact X|]. auto.
Qed.

(** ** The rules of a list of terms *)
Definition tf_rendered (today : Z) (t : term) : bool := negb (expired today t) && active_on "gce_vpc_tf" t.
Record block_of (i : gce_info) (today : Z) (g : gce_term) (rules : list rule_dict) : Prop := {
  bk_none : tf_rendered today (g_term g) = false -> rules = [];
  bk_sound : sound_for (gi_direction i) (g_term g) rules;
  bk_complete : forall p, tf_rendered today (g_term g) = true -> gce_traffic i p -> hit0 (gi_direction i) (g_term g) p ->
    exists r w, In r rules /\ t_action (g_term g) = [w] /\ tf_rule_says (gi_direction i) r p w }.
Lemma tf_terms_say i mx today : (gi_direction i = "INGRESS" \/ gi_direction i = "EGRESS") ->
  forall gs hc names count index ds n' x', tf_terms i mx today hc names count index gs = Ok (ds, n', x') ->
  (forall g, In g gs -> tf_rendered today (g_term g) = true -> t_stateless_reply (g_term g) = false /\
     g_source_accounts g = [] /\ g_target_accounts g = [] /\ fit i (g_term g) /\ no_own_priority g) ->
  (forall g, In g gs -> tf_rendered today (g_term g) = true -> t_option (g_term g) = [] /\ checked (gi_direction i) (g_term g)) /\
  exists blocks, holds ds (concat blocks) /\ counted index (concat blocks) /\ Forall2 (block_of i today) gs blocks.
Proof.
  intros Dir. induction gs as [|g gs IH]; intros hc names count index ds n' x' H Good; cbn [tf_terms] in H.
  - apply ok_inj in H. apply pair_equal_spec in H. destruct H as [H _]. apply pair_equal_spec in H. destruct H as [<- _].
    split; [intros g []|]. exists []. split; [exact holds_nil|]. split; [exact Logic.I|constructor].
  - assert (IHs := fun hc nm ct ix ds n' x' X => IH hc nm ct ix ds n' x' X (fun y Y => Good y (or_intror Y))). clear IH.
    assert (Skip : tf_rendered today (g_term g) = false -> forall hc nm ct, tf_terms i mx today hc nm ct index gs = Ok (ds, n', x') ->
      (forall y, In y (g :: gs) -> tf_rendered today (g_term y) = true -> t_option (g_term y) = [] /\ checked (gi_direction i) (g_term y)) /\
      exists blocks, holds ds (concat blocks) /\ counted index (concat blocks) /\ Forall2 (block_of i today) (g :: gs) blocks).
    { intros Rn hc' nm ct X. destruct (IHs _ _ _ _ _ _ _ X) as (B0 & bs & B1 & B2 & B3). split.
      - intros y [<-|Y] Z; [congruence|exact (B0 y Y Z)].
      - exists ([] :: bs). split; [exact B1|]. split; [exact B2|]. constructor; [|exact B3]. constructor; [reflexivity|intros r p w []|intros p Y; congruence]. }
    destruct (t_stateless_reply (g_term g)) eqn:St.
    { refine (Skip _ _ _ _ H). destruct (tf_rendered today (g_term g)) eqn:Rn; [|reflexivity].
      rewrite (proj1 (Good g (or_introl eq_refl) Rn)) in St. discriminate St. }
    match type of H with bind ?m _ = _ => destruct m as [name|] eqn:Nm; [|discriminate H] end. cbn [bind] in H. clear Nm.
    destruct (str_in name names); [discriminate H|].
    destruct (expired today (g_term g)) eqn:Ex.
    { apply (Skip ltac:(unfold tf_rendered; rewrite Ex; reflexivity) _ _ _ H). }
    destruct (some (t_option (g_term g))) eqn:Op; [discriminate H|]. apply some_false in Op.
    destruct (active_on "gce_vpc_tf" (g_term g)) eqn:Ac; cbn [negb] in H.
    2:{ apply (Skip ltac:(unfold tf_rendered; rewrite Ac, andb_false_r; reflexivity) _ _ _ H). }
    assert (Rn : tf_rendered today (g_term g) = true) by (unfold tf_rendered; rewrite Ex, Ac; reflexivity). clear Skip.
    match type of H with bind ?m _ = _ => destruct m as [[[[rs c2] n2] x2]|] eqn:Ps; [|discriminate H] end. cbn [bind fst snd] in H.
    match type of H with bind ?m _ = _ => destruct m as [[[more n3] x3]|] eqn:Mr; [|discriminate H] end. cbn [bind fst snd] in H.
    apply ok_inj in H. apply pair_equal_spec in H. destruct H as [H _]. apply pair_equal_spec in H. destruct H as [<- _].
    destruct (Good g (or_introl eq_refl) Rn) as (_ & A1 & A2 & F & Np).
    assert (F' : fit i (set_name name (g_term g))) by (destruct F; constructor; assumption).
    destruct (tf_pass_says i mx Dir _ _ _ _ _ _ _ _ _ Ps A1 A2 F' Np) as (rules & P1 & P2 & -> & P3 & P4).
    destruct (IHs _ _ _ _ _ _ _ Mr) as (B0 & bs & B1 & B2 & B3). cbn [g_term g_priority] in P3, P4.
    split.
    + intros y [<-|Y] Z; [|exact (B0 y Y Z)]. split; [exact Op|].
      destruct (gce_families (gi_af i)) as [|v0 vs] eqn:Fa.
      { unfold gce_families in Fa. destruct (String.eqb _ "mixed"); [discriminate Fa|]. destruct (String.eqb _ "inet6"); discriminate Fa. }
      cbn [tf_pass] in Ps. destruct (tf_init _ _) as [x|] eqn:Ci in Ps; [|discriminate Ps].
      apply tf_init_gce in Ci; [|intros X; apply (ft_texts _ _ F'), in_or_app; right; exact X]. destruct Ci as [Ci _].
      apply init_checked in Ci. cbn [g_term] in Ci. destruct Ci. constructor; assumption.
    + exists (rules :: bs). cbn [concat]. split; [exact (holds_app _ _ _ _ P1 B1)|]. split; [apply counted_app; split; assumption|].
      constructor; [|exact B3]. constructor; [congruence|exact P3|].
      intros p _ T Hi. destruct (family_found i _ p F Dir T Hi) as (u & U1 & U2). exact (P4 p u (traffic_plain _ _ T) U1 U2 Hi).
Qed.
