(** Aruba policies decide as their terms do. *)
From Coq Require Import Lia ZifyBool ZifyNat.
From Verif Require Import SpecAruba BaseFacts IPFacts PyStrFacts TextProofs WrapProofs CiscoProofs CiscoProofs2 CiscoTerm CiscoAcl CiscoDup CiscoGroupRead CiscoGroupTerm CiscoGroupAcl QuietTerm IptRule IptTable ArubaProofs ArubaAcl ArubaRead.
Local Open Scope string_scope.
Local Open Scope list_scope.
Local Open Scope Z_scope.

Record known (items : list aitem) (v : ver) (T : term -> Prop) : Prop := {
  kw_from : forall name ms, In (ADest v name ms) items -> exists t, T t /\ In (ADest v name ms) (term_items v t);
  kw_to : forall t i, T t -> both_shown v t -> In i (term_items v t) -> In i items;
  kw_same : forall t t', T t -> T t' -> lower (t_name t) = lower (t_name t') -> t_source_address t = t_source_address t' /\ t_destination_address t = t_destination_address t';
  kw_ok : forall t, T t -> ar_term_ok t }.
Lemma item_cases v t name ms : In (ADest v name ms) (term_items v t) ->
  (name = (lower (t_name t) ++ "_src")%string /\ ms = map member_words (address_of_version (t_source_address t) (Some v))) \/
  (name = (lower (t_name t) ++ "_dst")%string /\ ms = map member_words (address_of_version (t_destination_address t) (Some v))).
Proof.
  unfold term_items, end_items. intros I. apply in_app_or in I. destruct I as [I|I]; [left|right].
  - destruct (str_in "source-is-user" (t_option t)); [destruct I|]. destruct (t_source_address t) as [|n l]; [destruct I|]. destruct I as [I|[]].
    assert (E1 : (lower (t_name t) ++ "_src")%string = name) by congruence. assert (E2 : map member_words (address_of_version (n :: l) (Some v)) = ms) by congruence. auto.
  - destruct (str_in "destination-is-user" (t_option t)); [destruct I|]. destruct (t_destination_address t) as [|n l]; [destruct I|]. destruct I as [I|[]].
    assert (E1 : (lower (t_name t) ++ "_dst")%string = name) by congruence. assert (E2 : map member_words (address_of_version (n :: l) (Some v)) = ms) by congruence. auto.
Qed.
Lemma members_cover v l x : valid_list l -> 0 <= x < 2 ^ width v ->
  ((exists ws, In ws (map member_words (address_of_version l (Some v))) /\ dest_member_says v ws x) <-> covered l (v, x)).
Proof.
  intros V Hx. rewrite <- covered_version. destruct (version_valid l v V) as (V' & F). unfold valid_list in V'. rewrite Forall_forall in V', F. split.
  - intros (ws & I & M). apply in_map_iff in I. destruct I as (n & <- & I). exists n. split; [exact I|]. apply (member_says_net v n x (F n I) (V' n I) Hx), M.
  - intros (n & I & C). exists (member_words n). split; [apply in_map, I|]. apply (member_says_net v n x (F n I) (V' n I) Hx), C.
Qed.
Lemma end_spec items v T t x (src : bool) (isu : Prop) : known items v T -> T t -> both_shown v t -> 0 <= x < 2 ^ width v ->
  let user := if src then "source-is-user" else "destination-is-user" in
  let suffix := if src then "_src" else "_dst" in
  let l := if src then t_source_address t else t_destination_address t in
  (end_says items v (end_of user suffix t l) x isu <-> side_matches l [] (v, x) /\ (In user (t_option t) -> isu)).
Proof.
  intros Kn Tt B Hx user suffix l. pose proof (kw_ok _ _ _ Kn t Tt) as K. unfold end_of.
  assert (Sm : forall m, side_matches m [] (v, x) <-> m = [] \/ covered m (v, x)).
  { intros m. unfold side_matches. split; [tauto|]. intros H. split; [exact H|]. intros (n & [] & _). }
  destruct (str_in user (t_option t)) eqn:U.
  - apply str_in_spec in U. assert (El : l = []). { destruct (at_option t K _ U) as [(E & X)|(E & X)]; unfold user, l in *; destruct src; try discriminate E; exact X. }
    cbn [end_says]. rewrite El, Sm. tauto.
  - assert (Nu : ~ In user (t_option t)) by (intros X; apply str_in_spec in X; congruence).
    destruct l as [|a r] eqn:El; [cbn [end_says]; rewrite Sm; tauto|]. cbn [end_says].
    assert (C : dest_says items v (lower (t_name t) ++ suffix)%string x <-> covered l (v, x)).
    { assert (Vl : valid_list l) by (unfold l; destruct src; [exact (at_src t K)|exact (at_dst t K)]). rewrite <- (members_cover v l x Vl Hx). split.
      - intros (ms & ws & I & J & M). destruct (kw_from _ _ _ Kn _ _ I) as (t' & Tt' & I'). exists ws. split; [|exact M].
        destruct (item_cases v t' _ _ I') as [(E1 & E2)|(E1 & E2)]; apply suffix_inj in E1; try (unfold suffix; destruct src; reflexivity); destruct E1 as (E1 & E3);
          destruct (kw_same _ _ _ Kn t t' Tt Tt' E1) as (Es & Ed); unfold l; unfold suffix in E3; destruct src; try discriminate E3; rewrite ?Es, ?Ed, <- E2; exact J.
      - intros (ws & J & M). exists (map member_words (address_of_version l (Some v))), ws. split; [|auto]. apply (kw_to _ _ _ Kn t _ Tt B). unfold term_items. apply in_or_app. unfold end_items, l, user, suffix in *.
        destruct src; [left|right]; rewrite U, El; left; reflexivity. }
    rewrite El in C. rewrite C, Sm. intuition discriminate.
Qed.
Lemma ar_quiet t : ar_term_ok t -> quiet "aruba" t.
Proof.
  intros K. destruct (at_only t K) as (A1 & A2 & A3 & A4 & A5 & A6 & A7 & A8 & A9 & A10 & A11 & A12 & A13 & A14 & A15 & A16 & A17 & A18 & A19 & A20 & A21 & A22 & A23 & A24 & A25).
  destruct (at_plain t K) as (B1 & B2 & B3 & B4 & B5 & B6 & B7). assert (T : forall o n, o = None -> text_range o n) by (intros o n ->; exact Logic.I).
  constructor; try solve [auto 10]. split; [exact (at_platform t K)|auto].
Qed.
Lemma term_exact items v T t rs p : known items v T -> T t -> ar_traffic v p -> rules_for v t rs ->
  (forall a, (exists ws, In ws rs /\ ar_rule_says items v p ws a) <-> term_matches t p /\ exists w r, t_action t = w :: r /\ a = verdict w).
Proof.
  intros Kn Tt (Q1 & Q2 & Q3 & Q4 & Q5) R a. pose proof (kw_ok _ _ _ Kn t Tt) as K. rewrite (quiet_matches "aruba" t p (ar_quiet t K) Q5).
  destruct (at_plain t K) as (B1 & B2 & B3 & B4 & B5 & B6 & B7). rewrite B1, B4, B5, B6.
  assert (Ep1 : p_src p = (v, snd (p_src p))) by (destruct (p_src p); cbn in Q1 |- *; subst; reflexivity).
  assert (Ep2 : p_dst p = (v, snd (p_dst p))) by (destruct (p_dst p); cbn in Q3 |- *; subst; reflexivity).
  unfold rules_for in R. destruct (both_b v t) eqn:Bb.
  - apply both_b_spec in Bb. destruct R as (ps & sv & w & rest & act & Ep & Es & Ea & Ew & ->).
    pose proof (end_spec items v T t (snd (p_src p)) true (p_option p "source-is-user") Kn Tt Bb Q2) as S. cbv zeta iota in S.
    pose proof (end_spec items v T t (snd (p_dst p)) false (p_option p "destination-is-user") Kn Tt Bb Q4) as D. cbv zeta iota in D.
    rewrite <- Ep1 in S. rewrite <- Ep2 in D. destruct (services_say t ps sv p K Ep Es) as (Sv & _).
    assert (Ev : act = verdict w /\ In act ["permit"; "deny"]).
    { destruct (at_action t K) as (a' & r' & Ea' & Ia). assert (a' = w) as -> by congruence. destruct Ia as [<-|[<-|[]]]; cbn in Ew; injection Ew as <-; split; try reflexivity; cbn; auto. }
    destruct Ev as (Ev & Iv).
    assert (Op : (forall o, In o (t_option t) -> p_option p o) <-> (In "source-is-user" (t_option t) -> p_option p "source-is-user") /\ (In "destination-is-user" (t_option t) -> p_option p "destination-is-user")).
    { split; [auto|]. intros (O1 & O2) o I. destruct (at_option t K o I) as [(-> & _)|(-> & _)]; auto. }
    rewrite Op. unfold term_rules. split.
    + intros (ws & I & H). apply in_map_iff in I. destruct I as (s & <- & I). apply rule_words_say in H. destruct H as (-> & _ & H1 & H2 & H3).
      apply S in H1. apply D in H2. assert (X : exists s, In s sv /\ service_says (split_ws s) p) by eauto. apply Sv in X. destruct H1, H2, X.
      split; [|exists w, rest; auto]. repeat (split; [first [assumption|left; reflexivity|split; assumption]|]). left; reflexivity.
    + intros ((M1 & M2 & M3 & _ & M5 & (M6 & M7) & _) & w' & r' & Ea' & ->). assert (w' = w) as -> by congruence.
      destruct (proj2 Sv (conj M3 M5)) as (s & I & H). eexists. split; [apply in_map_iff; exists s; split; [reflexivity|exact I]|]. apply rule_words_say.
      split; [congruence|]. split; [exact Iv|]. split; [apply S; auto|]. split; [apply D; auto|exact H].
  - subst rs. split; [intros (ws & [] & _)|]. intros ((M1 & M2 & _) & _). exfalso.
    assert (B : both_shown v t).
    { split; unfold end_shown; right.
      - rewrite Ep1 in M1. destruct M1 as ([E|C] & _); [left; exact E|right; exact (covers_first v _ _ C)].
      - rewrite Ep2 in M2. destruct M2 as ([E|C] & _); [left; exact E|right; exact (covers_first v _ _ C)]. }
    apply both_b_spec in B. congruence.
Qed.

(** ** Policies *)
Definition live (today : Z) (ts : list term) : list term := filter (fun t => negb (expired today t)) ts.
Lemma live_in today ts t : In t (live today ts) <-> In t ts /\ in_force today t.
Proof. unfold live. rewrite filter_In, valid_expired, negb_involutive, valid_force. tauto. Qed.
Lemma family_spec options : ar_family_of options (ar_family (remove_first "noverbose" options)) /\ forall v, ar_family_of options v -> v = ar_family (remove_first "noverbose" options).
Proof.
  assert (R : forall l, In "inet6" (remove_first "noverbose" l) <-> In "inet6" l).
  { induction l as [|x l IH]; [reflexivity|]. cbn [remove_first]. destruct (String.eqb "noverbose" x) eqn:E; [apply String.eqb_eq in E; subst x; cbn [In]; intuition discriminate|]. cbn [In]. rewrite IH. reflexivity. }
  specialize (R options). unfold ar_family_of, ar_family. destruct (str_in "inet6" (remove_first "noverbose" options)) eqn:E.
  - apply str_in_spec in E. apply R in E. split; [tauto|]. intros v H. apply H, E.
  - assert (N : ~ In "inet6" (remove_first "noverbose" options)) by (intros X; apply str_in_spec in X; congruence). split; [split; [discriminate|tauto]|]. intros [] H; [reflexivity|]. exfalso. apply N, R, H. reflexivity.
Qed.
Definition opts_of (f : option (list string) * list term) : list string := match fst f with Some o => o | None => [] end.
Definition fam_of (f : option (list string) * list term) : ver := ar_family (remove_first "noverbose" (opts_of f)).
(** The items of one filter. *)
Definition filter_is (today : Z) (f : option (list string) * list term) (items : list aitem) : Prop :=
  exists name rest blocks, ar_header f name rest /\ Forall2 (rules_for (fam_of f)) (live today (snd f)) blocks /\
    items = filter_items (fam_of f) (live today (snd f)) ++ [AList name (concat blocks)].
Lemma policy_reads today fs l : (forall f, In f fs -> exists name rest, ar_header f name rest /\ forall t, In t (snd f) -> in_force today t -> ar_term_ok t) ->
  mapM (ar_filter today) fs = Ok l -> exists parts, Forall2 (filter_is today) fs parts /\ areads (lns (concat l)) (concat parts).
Proof.
  intros P H. apply mapM_forall2 in H. induction H as [|f x fs l E H IH]; [exists []; split; [constructor|exact areads_nil]|].
  destruct (IH (fun g I => P g (or_intror I))) as (parts & F & R). destruct (P f (or_introl eq_refl)) as (name & rest & Hh & K). pose proof Hh as (Eo & W).
  unfold ar_filter in E. rewrite Eo in E. apply bind_ok in E. destruct E as (m & Em & E). apply ok_inj in E. subst x.
  destruct (filter_reads _ _ name _ m W (fun t I => let X := proj1 (live_in today (snd f) t) I in K t (proj1 X) (proj2 X)) Em) as (blocks & Fb & Rb).
  eexists (_ :: parts). split; [constructor; [|exact F]|cbn [concat]; rewrite lns_app; apply areads_app; [exact Rb|exact R]].
  exists name, rest, blocks. split; [exact Hh|]. unfold fam_of, opts_of. rewrite Eo. split; [exact Fb|reflexivity].
Qed.
Lemma lists_app a b : lists_of (a ++ b) = lists_of a ++ lists_of b.
Proof. apply flat_map_app. Qed.
Lemma lists_dest v ts : lists_of (filter_items v ts) = [].
Proof.
  unfold filter_items. induction ts as [|t ts IH]; [reflexivity|]. cbn [map concat]. rewrite lists_app, IH, app_nil_r. destruct (both_b v t); [|reflexivity].
  unfold term_items, end_items. rewrite lists_app. destruct (str_in _ _), (str_in _ _), (t_source_address t), (t_destination_address t); reflexivity.
Qed.
Lemma items_family v ts i : In i (filter_items v ts) -> exists t, In t ts /\ both_b v t = true /\ In i (term_items v t).
Proof.
  unfold filter_items. intros I. apply in_concat in I. destruct I as (l & J & I). apply in_map_iff in J. destruct J as (t & <- & J). destruct (both_b v t) eqn:B; [|destruct I]. eauto.
Qed.
Lemma item_family v v' t name ms : In (ADest v name ms) (term_items v' t) -> v = v'.
Proof.
  unfold term_items, end_items. intros I. apply in_app_or in I. destruct I as [I|I]; (destruct (str_in _ _); [destruct I|]);
    [destruct (t_source_address t)|destruct (t_destination_address t)]; (destruct I as [I|[]] || destruct I); congruence.
Qed.
Lemma ar_lists_decide today fs text : ar_policy_ok today fs -> ar_text today fs = Ok text ->
  exists items, aruba_config text = Some items /\ Forall2 (ar_as_policy today items) fs (lists_of items).
Proof.
  intros (P1 & P2) H. unfold ar_text in H. apply bind_ok in H. destruct H as (l & El & H). apply ok_inj in H. subst text.
  destruct (policy_reads today fs l P1 El) as (parts & F & R). exists (concat parts). split.
  { unfold aruba_config. rewrite split_join_lns by discriminate. rewrite !lns_app.
    assert (A : areads (lns (add_repository_tags "# " true true true false)) []) by (apply areads_idle; vm_compute; reflexivity).
    assert (B : areads (lns [""]) []) by (apply areads_idle; reflexivity).
    pose proof (areads_app _ _ _ _ A (areads_app _ _ _ _ R B)) as X. specialize (X []). rewrite app_nil_r in X. rewrite X. cbn [read_aruba option_map app]. rewrite !app_nil_r. reflexivity. }
  set (items := concat parts) in *.
  pose (T := fun v t => exists f, In f fs /\ fam_of f = v /\ In t (live today (snd f))).
  assert (OF : forall f, In f fs -> fst f = Some (opts_of f) /\ ar_family_of (opts_of f) (fam_of f)).
  { intros f I. destruct (P1 f I) as (name & rest & (Eo & _) & _). unfold opts_of at 1. rewrite Eo. split; [reflexivity|]. apply family_spec. }
  assert (Kn : forall v, known items v (T v)).
  { intros v. constructor.
    - intros name ms I. unfold items in I. apply in_concat in I. destruct I as (part & J & I). destruct (IptRule.Forall2_in_r _ _ _ _ F J) as (f & If & (nm & rest & blocks & _ & _ & ->)).
      apply in_app_or in I. destruct I as [I|[I|[]]]; [|discriminate I]. apply items_family in I. destruct I as (t & It & _ & I). pose proof (item_family _ _ _ _ _ I) as E.
      exists t. split; [exists f; auto|]. rewrite E in I |- *. exact I.
    - intros t i (f & If & Ef & It) B I. destruct (IptRule.Forall2_in_l _ _ _ _ F If) as (part & J & (nm & rest & blocks & _ & _ & ->)).
      unfold items. apply in_concat. eexists. split; [exact J|]. apply in_or_app. left. unfold filter_items. apply in_concat. exists (term_items v t). split; [|exact I].
      apply in_map_iff. exists t. rewrite Ef. split; [|exact It]. apply both_b_spec in B. rewrite B. reflexivity.
    - intros t t' (f & If & Ef & It) (f' & If' & Ef' & It') E. apply live_in in It, It'. destruct (OF f If) as (O1 & O2). destruct (OF f' If') as (O1' & O2').
      rewrite Ef in O2. rewrite Ef' in O2'. exact (P2 f f' _ _ v t t' If If' O1 O1' O2 O2' (proj1 It) (proj1 It') (proj2 It) (proj2 It') E).
    - intros t (f & If & Ef & It). apply live_in in It. destruct (P1 f If) as (name & rest & _ & K). apply K; apply It. }
  assert (L : lists_of items = concat (map lists_of parts)).
  { unfold items. clear. induction parts as [|a l IH]; [reflexivity|]. cbn [concat map]. rewrite lists_app, IH. reflexivity. }
  rewrite L. clear L R El. assert (G : forall gs qs, Forall2 (filter_is today) gs qs -> (forall f, In f gs -> In f fs) -> Forall2 (ar_as_policy today items) gs (concat (map lists_of qs))).
  2:{ exact (G fs parts F (fun f I => I)). }
  clear F. induction 1 as [|f part gs qs (name & rest & blocks & Hh & Fb & ->) F IH]; intros Sub; [constructor|].
  cbn [map concat]. rewrite lists_app, lists_dest. cbn [app]. change (lists_of [AList name (concat blocks)]) with [(name, concat blocks)]. cbn [app].
  constructor; [|apply IH; intros g I; apply Sub; right; exact I]. exists name, rest. split; [exact Hh|]. split; [reflexivity|].
  intros v p Fv Q outcome. pose proof Hh as (Eo & _).
  assert (Ev : fam_of f = v). { symmetry. unfold fam_of, opts_of. rewrite Eo. apply family_spec, Fv. }
  rewrite Ev in *. cbn [snd]. unfold ar_list_decides, terms_decide.
  rewrite (first_says_blocks (ar_rule_says items v p) (fun t a => term_matches t p /\ exists w r, t_action t = w :: r /\ a = verdict w) (live today (snd f)) blocks).
  - unfold live. rewrite <- (first_says_filter _ (fun t => negb (expired today t)) (snd f)).
    + apply IptTable.first_says_iff. intros t a I. apply (live_in today (snd f) t) in I. tauto.
    + intros t I E a ((Ft & _) & _). rewrite valid_expired, negb_involutive in E. apply valid_force in Ft. congruence.
  - assert (Tl : forall t, In t (live today (snd f)) -> T v t) by (intros t I; exists f; split; [apply Sub; left; reflexivity|auto]).
    revert Fb Tl. clear - Kn Q. generalize (live today (snd f)). intros ts Fb. induction Fb as [|t rs ts bs R Fb IH]; intros Tl; constructor; [|apply IH; intros x I; apply Tl; right; exact I].
    split; [exact (term_exact items v (T v) t rs p (Kn v) (Tl t (or_introl eq_refl)) Q R)|]. intros a a' (_ & w1 & r1 & E1 & ->) (_ & w2 & r2 & E2 & ->). congruence.
Qed.
