(** pcap filters select what their policies accept. *)
From Coq Require Import Lia ZifyBool ZifyNat.
From Verif Require Import SpecPcap BaseFacts PyStrFacts TextProofs CiscoProofs CiscoProofs2 CiscoTerm CiscoAcl CiscoEst GenProofs GenProofs2 PcapText PcapTerm.
Local Open Scope string_scope.
Local Open Scope list_scope.
Local Open Scope Z_scope.

Lemma line_nonempty x : append x (String newline "") <> "".
Proof. destruct x; discriminate. Qed.
Lemma app_eq_split {A} (a b c d : list A) : a ++ b = c ++ d -> (exists m, a = c ++ m /\ d = m ++ b) \/ (exists m, c = a ++ m /\ b = m ++ d).
Proof.
  revert c. induction a as [|x a IH]; intros c E; [right; exists c; auto|]. destruct c as [|y c]; [left; exists (x :: a); auto|].
  injection E as <- E. destruct (IH c E) as [(m & -> & X)|(m & -> & X)]; [left|right]; exists m; auto.
Qed.
Lemma pcap_terms_cons c t ts l : pcap_terms c (t :: ts) = Ok l -> exists s more, pcap_term c t = Ok s /\ pcap_terms c ts = Ok more /\ l = (if nonempty s then s :: more else more).
Proof.
  cbn [pcap_terms]. destruct (pcap_term c t) as [s|e]; cbn [bind]; [|discriminate]. destruct (pcap_terms c ts) as [more|e]; cbn [bind]; [|discriminate].
  intros H. apply ok_inj in H. subst l. exists s, more. auto.
Qed.
Lemma free_texts local c ts : In (pc_af c) ["inet"; "inet6"; "mixed"] -> forall l, pcap_terms c ts = Ok l -> (forall t, In t ts -> pcap_term_ok (pc_af c) t /\ ~ has_condition t) ->
  forall x, In x l -> blank_text x /\ says local (pcap_traffic local c) x (fun _ => True).
Proof.
  intros Ia. induction ts as [|t ts IH]; intros l H F x I; [apply ok_inj in H; subst l; destruct I|]. apply pcap_terms_cons in H. destruct H as (s & more & H1 & H2 & ->).
  destruct (F t (or_introl eq_refl)) as (OK & N). pose proof (term_exact local c t s Ia OK H1) as [(_ & X & _)|[(E & _ & _)|(X & _)]]; [contradiction| |contradiction].
  subst s. cbn [nonempty] in I. destruct I as [<-|I]; [split; [right; reflexivity|left; split; [right; reflexivity|auto]]|].
  apply (IH more H2); [|exact I]. intros u J. apply F. right. exact J.
Qed.
(** The clause of at most one term with conditions, and others without. *)
Lemma clause_exact local c ds rest s : In (pc_af c) ["inet"; "inet6"; "mixed"] -> (List.length ds <= 1)%nat ->
  (forall t, In t ds -> pcap_term_ok (pc_af c) t /\ has_condition t) -> (forall t, In t rest -> pcap_term_ok (pc_af c) t /\ ~ has_condition t) ->
  pcap_clause c (ds ++ rest) = Ok s ->
  (blank_text s /\ forall p, pcap_traffic local c p -> ~ exists d, In d ds /\ term_matches d p) \/
  states local (pcap_traffic local c) s (fun p => exists d, In d ds /\ term_matches d p).
Proof.
  intros Ia L Hd Hr H. unfold pcap_clause in H. destruct ds as [|d [|d' ds]]; [| |cbn in L; lia].
  - left. cbn [app] in H. destruct (pcap_terms c rest) as [l|e] eqn:E; [|discriminate H]. cbn [bind] in H. apply ok_inj in H. subst s. pose proof (free_texts local c rest Ia l E Hr) as F.
    split; [|intros p _ (d & [] & _)]. left.
    assert (FF : Forall2 (says local (pcap_traffic local c)) l (map (fun _ _ => True) l)).
    { clear - F. induction l as [|x l IH]; [constructor|]. cbn [map]. constructor; [apply F; left; reflexivity|apply IH; intros y I; apply F; right; exact I]. }
    apply (proj2 (proj2 (says_and _ _ _ _ FF))). intros x I. apply F, I.
  - cbn [app] in H. destruct (pcap_terms c (d :: rest)) as [l|e] eqn:E; [|discriminate H]. cbn [bind] in H. apply ok_inj in H. subst s.
    apply pcap_terms_cons in E. destruct E as (s & more & E1 & E2 & ->). pose proof (free_texts local c rest Ia more E2 Hr) as F.
    assert (FF : Forall2 (says local (pcap_traffic local c)) more (map (fun _ _ => True) more)).
    { clear - F. induction more as [|x l IH]; [constructor|]. cbn [map]. constructor; [apply F; left; reflexivity|apply IH; intros y I; apply F; right; exact I]. }
    destruct (Hd d (or_introl eq_refl)) as (OK & C). destruct (term_exact local c d s Ia OK E1) as [(-> & _ & N)|[(_ & X & _)|(_ & S)]]; [|contradiction|].
    + left. cbn [nonempty]. split; [|intros p Pp (d' & [<-|[]] & M); exact (N p Pp M)]. left. apply (proj2 (proj2 (says_and _ _ _ _ FF))). intros x I. apply F, I.
    + right. rewrite (proj1 (solid_kept s (proj1 S))).
      assert (F2 : Forall2 (says local (pcap_traffic local c)) (s :: more) (term_matches d :: map (fun _ _ => True) more)) by (constructor; [right; exact S|exact FF]).
      apply (states_iff _ _ _ (fun p => Forall (fun C : packet -> Prop => C p) (term_matches d :: map (fun _ _ => True) more))).
      * apply (proj1 (proj2 (says_and _ _ _ _ F2))). apply Exists_cons_hd. apply S.
      * intros p _. rewrite Forall_cons_iff. split; [intros (M & _); exists d; split; [left; reflexivity|exact M]|]. intros (d' & [<-|[]] & M). split; [exact M|].
        apply Forall_forall. intros C' I. apply in_map_iff in I. destruct I as (x & <- & _). exact Logic.I.
Qed.
(** A term that some packets of the family can match is not dropped. *)
Lemma clause_states local c a rest s : In (pc_af c) ["inet"; "inet6"; "mixed"] -> pcap_term_ok (pc_af c) a -> has_condition a -> has_family (pc_af c) a ->
  (forall t, In t rest -> pcap_term_ok (pc_af c) t /\ ~ has_condition t) -> pcap_clause c (a :: rest) = Ok s -> states local (pcap_traffic local c) s (term_matches a).
Proof.
  intros Ia OK C Fm Hr H. destruct (clause_exact local c [a] rest s Ia) as [(B & _)|S]; [cbn; lia|intros t [<-|[]]; auto|exact Hr|exact H| |].
  - exfalso. unfold pcap_clause in H. destruct (pcap_terms c (a :: rest)) as [l|e] eqn:E; [|discriminate H]. cbn [bind] in H. apply ok_inj in H. subst s.
    apply pcap_terms_cons in E. destruct E as (s & more & E1 & E2 & ->).
    destruct (term_exact local c a s Ia OK E1) as [(-> & _ & _)|[(_ & X & _)|(_ & S)]]; [|contradiction|].
    + unfold pcap_term in E1. rewrite (proj2 (active_on_spec "pcap" a) (pt_meant _ _ OK)) in E1. cbn [negb] in E1.
      destruct (t_action a) as [|w acts]; [discriminate E1|]. destruct (str_in w ["accept"; "deny"; "reject"; "next"]); [|discriminate E1]. cbn [negb] in E1.
      destruct (pt_src _ _ OK) as (Sa & _). rewrite Sa in E1. change (pcap_addrs (pc_af c) []) with (@Ok (option (list net)) None) in E1. cbn [bind] in E1.
      assert (D : exists o, pcap_addrs (pc_af c) (t_destination_address a) = Ok o /\ o <> Some []).
      { destruct Fm as [-> |(n & I & J)]; [exists None; split; [reflexivity|discriminate]|].
        assert (Nn : t_destination_address a <> []) by (intros X; rewrite X in I; destruct I). destruct (family_filter (pc_af c) _ Ia Nn) as (l' & E & _ & Cv). exists (Some l'). split; [exact E|].
        assert (Vn : valid n) by (apply (proj1 (Forall_forall _ _) (proj1 (pt_dst _ _ OK))), I).
        assert (X : covered (t_destination_address a) (nver n, naddr n)).
        { exists n. split; [exact I|]. split; [reflexivity|]. cbn [snd]. assert (0 < size n) by (unfold size; apply Z.pow_pos_nonneg; [lia|]; destruct Vn as (? & _); lia). lia. }
        apply Cv in X; [|exact J]. intros Q. injection Q as ->. destruct X as (m & [] & _). }
      destruct D as (o & Eo & No). rewrite Eo in E1. cbn [bind] in E1. destruct o as [[|n l]|]; [congruence| |];
        (destruct (some (t_protocol_except a)); [discriminate E1|]; destruct (proto_conditions (t_protocol a)) as [pr|e]; cbn [bind] in E1; [|discriminate E1];
         match type of E1 with (let! _ := ?x in _) = _ => destruct x as [ic|e]; cbn [bind] in E1; [|discriminate E1] end; apply ok_inj in E1; exact (line_nonempty _ E1)).
    + assert (FF : Forall2 (says local (pcap_traffic local c)) more (map (fun _ _ => True) more)).
      { pose proof (free_texts local c rest Ia more E2 Hr) as F. clear - F. induction more as [|x l IH]; [constructor|]. cbn [map]. constructor; [apply F; left; reflexivity|apply IH; intros y I; apply F; right; exact I]. }
      rewrite (proj1 (solid_kept s (proj1 S))) in B.
      assert (F2 : Forall2 (says local (pcap_traffic local c)) (s :: more) (term_matches a :: map (fun _ _ => True) more)) by (constructor; [right; exact S|exact FF]).
      destruct (proj1 (proj2 (says_and _ _ _ _ F2)) ltac:(apply Exists_cons_hd; apply S)) as (So & _). apply solid_kept in So. destruct So as (S1 & S2). pose proof (blank_dropped _ B) as Q. rewrite S1, S2 in Q. discriminate Q.
  - apply (states_iff _ _ _ _ _ S). intros p _. split; [intros (d & [<-|[]] & M); exact M|intros M; exists a; split; [left; reflexivity|exact M]].
Qed.

(** ** Headers *)

Lemma states_target local P a d A (D : packet -> Prop) : states local P a A -> (blank_text d /\ forall p, P p -> ~ D p) \/ states local P d D ->
  states local P (join_conditionals [a; d] "and not") (fun p => A p /\ ~ D p).
Proof.
  intros Sa [(B & N)|Sd]; [|apply states_not; assumption]. apply (states_iff local P _ A); [apply states_one; assumption|]. intros p Pp. split; [intros X; split; [exact X|apply N, Pp]|tauto].
Qed.
Lemma select_spec today terms r : pcap_select today terms = Ok r ->
  fst r = filter (fun t => match t_action t with a :: _ => String.eqb a "accept" | [] => false end) (filter (valid_on today) terms) /\
  snd r = filter (fun t => match t_action t with a :: _ => String.eqb a "deny" || String.eqb a "reject" | [] => false end) (filter (valid_on today) terms).
Proof.
  revert r. induction terms as [|t terms IH]; intros r H; [apply ok_inj in H; subst r; auto|]. cbn [pcap_select] in H. cbn [filter]. rewrite (valid_on_expired today t).
  destruct (expired today t); cbn [negb]; [apply IH, H|]. cbn [filter]. destruct (t_action t) as [|a acts]; [discriminate H|].
  destruct (pcap_select today terms) as [(m1, m2)|e]; [|discriminate H]. cbn [bind fst snd] in H. destruct (IH (m1, m2) eq_refl) as (<- & <-). cbn [fst snd].
  destruct (String.eqb a "accept") eqn:Ea.
  - apply ok_inj in H. subst r. cbn [fst snd]. apply String.eqb_eq in Ea. subst a. auto.
  - destruct (String.eqb a "deny" || String.eqb a "reject") eqn:Ed; apply ok_inj in H; subst r; auto.
Qed.
Lemma filter_none {A} (f : A -> bool) l : (forall x, In x l -> f x = false) -> filter f l = [].
Proof. induction l as [|x l IH]; intros H; [reflexivity|]. cbn [filter]. rewrite H by (left; reflexivity). apply IH. intros y I. apply H. right. exact I. Qed.
Lemma filter_every {A} (f : A -> bool) l : (forall x, In x l -> f x = true) -> filter f l = l.
Proof. induction l as [|x l IH]; intros H; [reflexivity|]. cbn [filter]. rewrite H by (left; reflexivity). f_equal. apply IH. intros y I. apply H. right. exact I. Qed.
Definition acc_test (t : term) : bool := match t_action t with a :: _ => String.eqb a "accept" | [] => false end.
Definition rej_test (t : term) : bool := match t_action t with a :: _ => String.eqb a "deny" || String.eqb a "reject" | [] => false end.
Lemma accepts_tests t : accepts t -> acc_test t = true /\ rej_test t = false.
Proof. intros (r & E). unfold acc_test, rej_test. rewrite E. split; reflexivity. Qed.
Lemma rejects_tests t : rejects t -> acc_test t = false /\ rej_test t = true.
Proof. intros (a & r & E & I). unfold acc_test, rej_test. rewrite E. repeat destruct I as [<-|I]; try destruct I; split; reflexivity. Qed.
Lemma accepts_says p t o : accepts t -> (pcap_says p t o <-> term_matches t p /\ o = "accept").
Proof.
  intros (r & E). unfold pcap_says. rewrite E. split; [intros (M & a & r' & X & ->); injection X as <- _; split; [exact M|reflexivity]|intros (M & ->); split; [exact M|exists "accept", r; auto]].
Qed.
Lemma rejects_says p t o : rejects t -> (pcap_says p t o <-> term_matches t p /\ o = "deny").
Proof.
  intros (a & r & E & I). unfold pcap_says. rewrite E. assert (X : String.eqb a "accept" = false) by (repeat destruct I as [<-|I]; try destruct I; reflexivity).
  split; [intros (M & a' & r' & Y & ->); injection Y as <- _; rewrite X; split; [exact M|reflexivity]|intros (M & ->); split; [exact M|exists a, r; rewrite X; auto]].
Qed.
(** One term gives the outcome, those before it give the other one; so do those after. *)
Lemma decides_one p before x after o o' : o <> o' -> (forall t u, In t before -> pcap_says p t u <-> term_matches t p /\ u = o') -> (forall u, pcap_says p x u <-> term_matches x p /\ u = o) ->
  (forall t u, In t after -> pcap_says p t u <-> term_matches t p /\ u = o') ->
  first_says (pcap_says p) (before ++ x :: after) o <-> term_matches x p /\ ~ exists d, In d before /\ term_matches d p.
Proof.
  intros N Hb Hx Ha. split.
  - intros (b & y & a & E & S & F). apply app_eq_split in E. destruct E as [(m & E1 & E2)|(m & E1 & E2)].
    + (* y in before or x *) destruct m as [|z m].
      * rewrite app_nil_r in E1. cbn [app] in E2. injection E2 as <- <-. subst b. apply Hx in S. split; [apply S|]. intros (d & I & M). apply N. symmetry. apply (F d o' I). apply Hb; auto.
      * cbn [app] in E2. injection E2 as <- E2. subst before. exfalso. apply (Hb y o) in S; [|apply in_or_app; right; left; reflexivity]. destruct S as (_ & X). congruence.
    + destruct m as [|z m].
      * cbn [app] in E2. injection E2 as <- <-. rewrite app_nil_r in E1. subst b. apply Hx in S. split; [apply S|]. intros (d & I & M). apply N. symmetry. apply (F d o' I). apply Hb; auto.
      * cbn [app] in E2. injection E2 as <- E2. exfalso. apply (Ha y o) in S; [|rewrite E2; apply in_or_app; right; left; reflexivity]. destruct S as (_ & X). congruence.
  - intros (M & Nd). exists before, x, after. split; [reflexivity|]. split; [apply Hx; auto|]. intros y a I S. apply (Hb y a I) in S. exfalso. apply Nd. exists y. tauto.
Qed.
Lemma family_cfg options af : pcap_family options = Ok af -> pc_af (header_cfg options) = af /\ In af ["inet"; "inet6"; "mixed"].
Proof.
  unfold pcap_family, header_cfg. cbn [pc_af filter]. destruct (str_in "inet" options), (str_in "inet6" options), (str_in "mixed" options); intros H; try discriminate H; apply ok_inj in H; subst af; cbn; auto.
Qed.
Lemma translate_spec today fs : forall direction es, pcap_translate today direction fs = Ok es ->
  (forall f, In f fs -> has_direction (fst f)) \/ (direction = "" /\ forall f, In f fs -> ~ has_direction (fst f)) ->
  Forall2 (fun f e => fst e = header_cfg (fst f) /\ In (pc_af (fst e)) ["inet"; "inet6"; "mixed"] /\ pcap_select today (snd f) = Ok (snd e)) fs es.
Proof.
  induction fs as [|(options, terms) rest IH]; intros direction es H D; [apply ok_inj in H; subst es; constructor|]. cbn [pcap_translate] in H.
  destruct (existsb _ options); [discriminate H|]. destruct (pcap_family options) as [af|e] eqn:Ef; cbn [bind] in H; [|discriminate H].
  destruct (pcap_select today terms) as [ts|e] eqn:Es; cbn [bind] in H; [|discriminate H].
  destruct (pcap_translate today (pcap_direction direction options) rest) as [more|e] eqn:Er; cbn [bind] in H; [|discriminate H]. apply ok_inj in H. subst es.
  destruct (family_cfg options af Ef) as (Ea & Ia).
  assert (Ed : pcap_direction direction options = pc_direction (header_cfg options)).
  { unfold pcap_direction, header_cfg. cbn [pc_direction]. destruct (str_in "in" options) eqn:E1; [reflexivity|]. destruct (str_in "out" options) eqn:E2; [reflexivity|].
    destruct D as [D|(-> & _)]; [|reflexivity]. destruct (D (options, terms) (or_introl eq_refl)) as [X|X]; apply str_in_iff in X; cbn [fst] in X; congruence. }
  constructor.
  - cbn [fst snd]. split; [|split; [exact Ia|exact Es]]. rewrite Ed, <- Ea. destruct (header_cfg options); reflexivity.
  - apply (IH _ _ Er). destruct D as [D|(-> & D)]; [left; intros f I; apply D; right; exact I|right]. split; [|intros f I; apply D; right; exact I].
    rewrite Ed. unfold header_cfg. cbn [pc_direction]. pose proof (D (options, terms) (or_introl eq_refl)) as N. unfold has_direction in N. cbn [fst] in N.
    destruct (str_in "in" options) eqn:E1; [exfalso; apply N; left; apply str_in_iff, E1|]. destruct (str_in "out" options) eqn:E2; [exfalso; apply N; right; apply str_in_iff, E2|]. reflexivity.
Qed.
Lemma live_ok today f : (forall t, In t (snd f) -> in_force today t -> pcap_term_ok (pc_af (header_cfg (fst f))) t) -> forall t, In t (filter (valid_on today) (snd f)) -> pcap_term_ok (pc_af (header_cfg (fst f))) t.
Proof.
  intros H t I. apply filter_In in I. destruct I as (I & V). apply H; [exact I|]. unfold in_force, valid_on in *. intros d E. rewrite E in V. lia.
Qed.
Lemma target_exact local today (f : list string * list term) c ts a d : pcap_shape today f -> c = header_cfg (fst f) -> In (pc_af c) ["inet"; "inet6"; "mixed"] -> pcap_select today (snd f) = Ok ts ->
  (forall t, In t (snd f) -> in_force today t -> pcap_term_ok (pc_af (header_cfg (fst f))) t) -> pcap_clause c (fst ts) = Ok a -> pcap_clause c (snd ts) = Ok d ->
  states local (pcap_traffic local c) (join_conditionals [a; d] "and not") (fun p => pcap_decides today p (snd f) "accept").
Proof.
  intros (ds & x & rest & E & L & Hd & Ax & Cx & Fx & Hr) Ec Ia Es OK Ca Cd. destruct (select_spec today _ _ Es) as (S1 & S2). pose proof (live_ok today f OK) as OK'. rewrite E in *.
  rewrite <- Ec in *. clear Es. fold acc_test in S1. fold rej_test in S2. rewrite filter_app in S1, S2. cbn [filter] in S1, S2. change (match t_action x with a :: _ => String.eqb a "accept" | [] => false end) with (acc_test x) in S1.
  change (match t_action x with a :: _ => String.eqb a "deny" || String.eqb a "reject" | [] => false end) with (rej_test x) in S2.
  destruct (accepts_tests x Ax) as (T1 & T2). rewrite T1 in S1. rewrite T2 in S2.
  rewrite (filter_none acc_test ds) in S1 by (intros t I; apply rejects_tests, Hd, I). rewrite (filter_none acc_test rest) in S1 by (intros t I; apply rejects_tests, Hr, I).
  rewrite (filter_every rej_test ds) in S2 by (intros t I; apply rejects_tests, Hd, I). rewrite (filter_every rej_test rest) in S2 by (intros t I; apply rejects_tests, Hr, I).
  rewrite S1 in Ca. rewrite S2 in Cd. cbn [app] in Ca.
  assert (Sa : states local (pcap_traffic local c) a (term_matches x)).
  { apply (clause_states local c x [] a Ia); [apply OK', in_or_app; right; left; reflexivity|exact Cx|exact Fx|intros t []|exact Ca]. }
  assert (Sd := fun H1 H2 => clause_exact local c ds rest d Ia L H1 H2 Cd).
  eapply states_iff; [apply (states_target local _ a d (term_matches x) (fun p => exists e, In e ds /\ term_matches e p) Sa)|].
  - apply Sd.
    + intros t I. split; [apply OK', in_or_app; left; exact I|apply Hd, I].
    + intros t I. split; [apply OK', in_or_app; right; right; exact I|apply Hr, I].
  - intros p _. unfold pcap_decides. rewrite E. symmetry. apply (decides_one p ds x rest "accept" "deny"); [discriminate| | |].
    + intros t u I. apply rejects_says, Hd, I.
    + intros u. apply accepts_says, Ax.
    + intros t u I. apply rejects_says, Hr, I.
Qed.
Lemma target_inverted local today (f : list string * list term) c ts a d : pcap_inverted_shape today f -> c = header_cfg (fst f) -> In (pc_af c) ["inet"; "inet6"; "mixed"] -> pcap_select today (snd f) = Ok ts ->
  (forall t, In t (snd f) -> in_force today t -> pcap_term_ok (pc_af (header_cfg (fst f))) t) -> pcap_clause c (fst ts) = Ok a -> pcap_clause c (snd ts) = Ok d ->
  states local (pcap_traffic local c) (join_conditionals [d; a] "and not") (fun p => pcap_decides today p (snd f) "deny").
Proof.
  intros (ds & x & rest & E & L & Hd & Ax & Cx & Fx & Hr) Ec Ia Es OK Ca Cd. destruct (select_spec today _ _ Es) as (S1 & S2). pose proof (live_ok today f OK) as OK'. rewrite E in *.
  rewrite <- Ec in *. clear Es. fold acc_test in S1. fold rej_test in S2. rewrite filter_app in S1, S2. cbn [filter] in S1, S2. change (match t_action x with a :: _ => String.eqb a "accept" | [] => false end) with (acc_test x) in S1.
  change (match t_action x with a :: _ => String.eqb a "deny" || String.eqb a "reject" | [] => false end) with (rej_test x) in S2.
  destruct (rejects_tests x Ax) as (T1 & T2). rewrite T1 in S1. rewrite T2 in S2.
  rewrite (filter_none rej_test ds) in S2 by (intros t I; apply accepts_tests, Hd, I). rewrite (filter_none rej_test rest) in S2 by (intros t I; apply accepts_tests, Hr, I).
  rewrite (filter_every acc_test ds) in S1 by (intros t I; apply accepts_tests, Hd, I). rewrite (filter_every acc_test rest) in S1 by (intros t I; apply accepts_tests, Hr, I).
  rewrite S1 in Ca. rewrite S2 in Cd. cbn [app] in Cd.
  assert (Sd : states local (pcap_traffic local c) d (term_matches x)).
  { apply (clause_states local c x [] d Ia); [apply OK', in_or_app; right; left; reflexivity|exact Cx|exact Fx|intros t []|exact Cd]. }
  assert (Sa := fun H1 H2 => clause_exact local c ds rest a Ia L H1 H2 Ca).
  eapply states_iff; [apply (states_target local _ d a (term_matches x) (fun p => exists e, In e ds /\ term_matches e p) Sd)|].
  - apply Sa.
    + intros t I. split; [apply OK', in_or_app; left; exact I|apply Hd, I].
    + intros t I. split; [apply OK', in_or_app; right; right; exact I|apply Hr, I].
  - intros p _. unfold pcap_decides. rewrite E. symmetry. apply (decides_one p ds x rest "deny" "accept"); [discriminate| | |].
    + intros t u I. apply accepts_says, Hd, I.
    + intros u. apply rejects_says, Ax.
    + intros t u I. apply accepts_says, Hr, I.
Qed.

(** ** Whole filters *)

Definition wanted (invert : bool) : string := if invert then "deny" else "accept".
Definition shape_of (invert : bool) (today : Z) (f : list string * list term) : Prop := if invert then pcap_inverted_shape today f else pcap_shape today f.
Lemma states_weaken local (P Q : packet -> Prop) s C : (forall p, Q p -> P p) -> states local P s C -> states local Q s C.
Proof. intros H (S & ts & c & L & M & E). split; [exact S|]. exists ts, c. split; [exact L|]. split; [exact M|]. intros p Qp. apply E, H, Qp. Qed.
Lemma targets_exact local today invert (P : packet -> Prop) fs : forall es ts,
  Forall2 (fun f e => fst e = header_cfg (fst f) /\ In (pc_af (fst e)) ["inet"; "inet6"; "mixed"] /\ pcap_select today (snd f) = Ok (snd e)) fs es ->
  (forall f, In f fs -> shape_of invert today f /\ forall t, In t (snd f) -> in_force today t -> pcap_term_ok (pc_af (header_cfg (fst f))) t) ->
  (forall f p, In f fs -> P p -> pcap_traffic local (header_cfg (fst f)) p) ->
  pcap_targets invert es = Ok ts -> Forall2 (states local P) ts (map (fun f p => pcap_decides today p (snd f) (wanted invert)) fs).
Proof.
  intros es ts F. revert ts. induction F as [|f (c, (ac, de)) fs es (Ec & Ia & Es) F IH]; intros ts OK T H; [apply ok_inj in H; subst ts; constructor|].
  cbn [pcap_targets] in H. cbn [fst snd] in *. destruct (pcap_clause c ac) as [a|e] eqn:Ca; cbn [bind] in H; [|discriminate H]. destruct (pcap_clause c de) as [d|e] eqn:Cd; cbn [bind] in H; [|discriminate H].
  destruct (pcap_targets invert es) as [more|e] eqn:Em; cbn [bind] in H; [|discriminate H]. apply ok_inj in H. subst ts. cbn [map].
  destruct (OK f (or_introl eq_refl)) as (Sh & Ok_). constructor.
  - apply (states_weaken local (pcap_traffic local c)); [intros p Pp; rewrite Ec; apply T; [left; reflexivity|exact Pp]|]. destruct invert.
    + apply (target_inverted local today f c (ac, de) a d Sh Ec Ia Es Ok_ Ca Cd).
    + apply (target_exact local today f c (ac, de) a d Sh Ec Ia Es Ok_ Ca Cd).
  - apply IH; [intros g I; apply OK; right; exact I|intros g p I; apply T; right; exact I|reflexivity].
Qed.
Lemma lexes_lines l ts : Forall2 lexes l ts -> l <> [] -> lexes (join (append (String newline "") (append "or" (String newline ""))) l) (between ["or"] ts).
Proof.
  induction 1 as [|x t l ts H F IH]; [congruence|]. intros _. destruct F as [|y u l ts H' F]; [exact H|]. rewrite join_cons2, between_cons.
  specialize (IH ltac:(discriminate)). intros r Br. specialize (IH r Br). set (w := join _ (y :: l)) in *. clearbody w.
  change (append (append (String newline "") (append "or" (String newline ""))) w) with (String newline (String "o" (String "r" (String newline w)))).
  rewrite str_app_assoc, H by reflexivity. cbn [append].
  change (pc_words "" (String newline (String "o" (String "r" (String newline (w ++ r)%string))))) with ("or" :: pc_words "" (w ++ r)%string). rewrite IH. rewrite <- !app_assoc. reflexivity.
Qed.
Theorem filter_exact local today invert fs text : pcap_filter invert today fs = Ok text -> pcap_policy_ok (shape_of invert today) today fs ->
  exists c, read_pcap local text = Some c /\ forall p, (forall f, In f fs -> pcap_traffic local (header_cfg (fst f)) p) ->
    (c p <-> exists f, In f fs /\ pcap_decides today p (snd f) (wanted invert)).
Proof.
  intros H (Nf & D & OK). unfold pcap_filter in H. destruct (pcap_translate today "" fs) as [es|e] eqn:Et; cbn [bind] in H; [|discriminate H].
  destruct (pcap_targets invert es) as [ts|e] eqn:Ets; cbn [bind] in H; [|discriminate H]. apply ok_inj in H. subst text.
  set (P := fun p => forall f, In f fs -> pcap_traffic local (header_cfg (fst f)) p).
  assert (F := targets_exact local today invert P fs es ts (translate_spec today fs "" es Et (match D with or_introl X => or_introl X | or_intror X => or_intror (conj eq_refl X) end)) OK (fun f p I Pp => Pp f I) Ets).
  assert (G : exists tss cs, Forall2 lexes ts tss /\ Forall2 (means local) tss cs /\ Forall2 (fun (c : packet -> Prop) (C : packet -> Prop) => forall p, P p -> c p <-> C p) cs (map (fun f p => pcap_decides today p (snd f) (wanted invert)) fs)).
  { clear - F. induction F as [|x C l Cs (_ & t & c & L & M & H) F (tss & cs & F1 & F2 & F3)]; [exists [], []; auto|]. exists (t :: tss), (c :: cs). auto. }
  destruct G as (tss & cs & F1 & F2 & F3). assert (Nt : ts <> []) by (intros ->; apply Forall2_length in F; rewrite map_length in F; destruct fs; [congruence|discriminate F]).
  destruct F2 as [|t0 c0 tss cs M0 F2]; [inversion F1; subst; congruence|]. destruct (run_more local false tss cs F2 c0) as (a' & R & E). exists a'. split.
  - unfold read_pcap. pose proof (lexes_newline _ _ (lexes_lines ts (t0 :: tss) F1 Nt) "" Logic.I) as W. rewrite str_app_nil in W. cbn [pc_words flush nonempty] in W. rewrite app_nil_r in W. rewrite W. clear W.
    assert (Rn : expr_run local (between ["or"] (t0 :: tss)) ([], empty_frame, []) = Some ([], mkFrame (Some a') None false, [])).
    { rewrite between_flat. rewrite (M0 [] empty_frame (mkFrame (Some c0) None false)) by reflexivity. specialize (R [] []). rewrite app_nil_r in R. exact R. }
    destruct (between ["or"] (t0 :: tss)) as [|w ws]; [discriminate Rn|]. rewrite Rn. reflexivity.
  - intros p Pp. rewrite E. transitivity (Exists (fun C : packet -> Prop => C p) (c0 :: cs)); [rewrite Exists_cons; reflexivity|]. transitivity (Exists (fun C : packet -> Prop => C p) (map (fun f p => pcap_decides today p (snd f) (wanted invert)) fs)).
    + clear - F3 Pp. induction F3 as [|c C l Cs X F IH]; [split; intros Y; inversion Y|]. rewrite !Exists_cons, IH, (X p Pp). reflexivity.
    + rewrite Exists_exists. split.
      * intros (C & I & X). apply in_map_iff in I. destruct I as (f & <- & I). exists f. auto.
      * intros (f & I & X). eexists. split; [apply in_map_iff; exists f; split; [reflexivity|exact I]|exact X].
Qed.
