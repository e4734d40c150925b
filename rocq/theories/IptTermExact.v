(** The lines of a term select its packets. *)
From Coq Require Import Lia ZifyBool ZifyNat.
From Verif Require Import SpecIptables BaseFacts PyStrFacts TextProofs GenProofs GenProofs2 CiscoProofs CiscoProofs2 CiscoTerm CiscoAcl WrapProofs JuniperTerm
  IptText IPFacts PolicyProofs IptProofs IptLine IptPart IptCombo IptAddr IptTerm IptRule.
Local Open Scope string_scope.
Local Open Scope list_scope.
Local Open Scope Z_scope.

Lemma in_protocols t q : In q (protocols_of t) -> q = "all" /\ t_protocol t = [] \/ In q (t_protocol t).
Proof. unfold protocols_of. destruct (t_protocol t); cbn [some]; [intros [<-|[]]; auto|auto]. Qed.
Lemma protocols_single t q : protocols_of t = [q] -> q <> "all" -> t_protocol t = [q].
Proof. unfold protocols_of. destruct (t_protocol t); cbn [some]; [congruence|auto]. Qed.
Lemma protocols_some t : t_protocol t <> [] -> protocols_of t = t_protocol t.
Proof. unfold protocols_of. destruct (t_protocol t); [congruence|reflexivity]. Qed.
Lemma protocols_say c t p : ipt_term_ok c t -> (exists q, In q (protocols_of t) /\ proto_says q p) <-> any_or (t_protocol t) (eq (p_proto p)).
Proof.
  intros K. unfold any_or, proto_says. split.
  - intros (q & I & S). destruct (in_protocols t q I) as [(_ & E)|E]; [left; exact E|right]. exists q. split; [exact E|].
    destruct (it_protocol c t K q E) as (M & N). destruct S as [->|[->|S]]; [|congruence|exact S].
    exfalso. apply str_in_spec in M. vm_compute in M. discriminate M.
  - intros [E|(q & I & E)].
    + exists "all". split; [unfold protocols_of; rewrite E; left; reflexivity|auto].
    + exists q. split; [|auto]. rewrite protocols_some; [exact I|]. intros X. rewrite X in I. destruct I.
Qed.

Lemma combos_ok c t s d types flags tr act a rest : ipt_term_ok c t -> t_action t = a :: rest -> ipt_action (ic_ver c) a = Some act ->
  (forall n, In n (s ++ d) -> valid n /\ nver n = ic_ver c) ->
  normalize_icmp_types (t_icmp_type t) (protocols_of t) (AfName (ipt_af (ic_ver c))) = Ok types ->
  flags = flat_map opt_flags (t_option t) -> tr = tracked c (protocols_of t) (t_option t) ->
  match ic_ver c with V6 => str_in "icmp" (t_protocol t) | V4 => str_in "icmpv6" (t_protocol t) end = false ->
  str_in "hopopt" (protocols_of t) && ver_eqb (ic_ver c) V4 = false ->
  forall k, In k (ipt_combos t s d (type_list types) (code_list (t_icmp_code t)) (protocols_of t) flags tr act) ->
  combo_ok c t k (all_options c t) (existsb is_initial (t_option t)) (target_of a).
Proof.
  intros K Ea Eact Hn Ht -> -> Hf Hh k I. apply in_combos in I. destruct I as (n & m & ty & co & pr & w & In_ & Im & Ity & Ico & Ipr & Iw & ->).
  destruct (it_action c t K) as (a' & r' & Ea' & Ia). rewrite Ea in Ea'. injection Ea' as <- <-.
  destruct (action_target _ _ _ Ia Eact) as (A1 & A2 & A3).
  assert (Fl : flat_map opt_flags (t_option t) <> [] -> t_protocol t = ["tcp"] /\ existsb is_initial (t_option t) = false).
  { intros N. destruct (flags_some _ N) as (o & Io & Fo). split; [eapply tcp_option; [exact K|exact Io|apply in_or_app; right; exact Fo]|].
    destruct (existsb is_initial (t_option t)) eqn:F; [|reflexivity]. exfalso. apply (proj1 (proj2 (it_once c t K))). split; [exists o; auto|].
    apply existsb_exists in F. destruct F as (x & Ix & Fx). apply is_initial_iff in Fx. exists x. auto. }
  constructor; cbn [cb_proto cb_src cb_sport cb_dst cb_dport cb_flags cb_type cb_code cb_track cb_in cb_out cb_log cb_action].
  - destruct (it_names c t K). split; [assumption|]. apply chain_plain; assumption.
  - destruct (in_protocols t pr Ipr) as [(-> & _)|E]; [auto|]. right. right. apply (it_protocol c t K pr E).
  - intros S. destruct (in_protocols t pr Ipr) as [(-> & _)|E].
    { exfalso. cbn in S. repeat destruct S as [S|S]; try discriminate S. destruct S. }
    destruct (it_special c t K (ex_intro _ pr (conj S E))) as (S1 & S2 & S3). split; [|split].
    + destruct (ic_ver c) eqn:V; [|reflexivity]. exfalso. destruct (it_family c t K) as (_ & _ & _ & Fr). destruct S as [<-|[<-|[<-|[]]]].
      * rewrite andb_true_r in Hh. apply str_in_false in Hh. exact (Hh Ipr).
      * exact (Fr V E).
      * apply str_in_false in Hf. exact (Hf E).
    + unfold all_options, value_texts. rewrite S1, S2, S3. reflexivity.
    + rewrite S1. reflexivity.
  - intros r Ir. destruct (it_ports c t K r Ir) as (P1 & P2 & P3). split; [exact P1|]. apply P3. rewrite protocols_some in Ipr by exact P2. exact Ipr.
  - pose proof (types_sound _ _ _ _ _ Ht Ity) as S. destruct (it_codes c t K) as (C1 & C2). destruct ty as [x|].
    + destruct S as (S1 & S2). split; [exact S1|]. split.
      * intros y ->. unfold code_list in Ico. destruct (some (t_icmp_code t)); [|destruct Ico as [X|[]]; discriminate X].
        apply in_map_iff in Ico. destruct Ico as (z & E & Iz). injection E as <-. apply C1, Iz.
      * destruct S2 as [(E & V)|(E & V)]; rewrite E in Ipr; destruct Ipr as [<-|[]]; auto.
    + destruct (t_icmp_code t) as [|z l]; [|exfalso; apply C2; [discriminate|exact S]]. destruct Ico as [<-|[]]. reflexivity.
  - intros x E. injection E as <-. apply Hn, in_or_app. auto.
  - intros x E. injection E as <-. apply Hn, in_or_app. auto.
  - unfold has_flags. cbn [cb_flags cb_track]. intros H. destruct (tracked c (protocols_of t) (t_option t)) eqn:Tr.
    + destruct (tracked_spec c t K Tr) as (E1 & E2 & E3 & E4). rewrite E1. rewrite E4 in Ipr. destruct Ipr as [<-|[]]. split; [reflexivity|]. split; [exact E3|].
      destruct Iw as [<-|[<-|[]]]; (split; [discriminate|]); intros g G; apply str_in_spec; cbn in G; repeat destruct G as [<-|G]; try reflexivity; destruct G.
    + destruct Iw as [<-|[]]. cbn [fst snd some] in *. rewrite orb_false_r in H.
      assert (N : flat_map opt_flags (t_option t) <> []) by (intros X; rewrite X in H; discriminate H). destruct (Fl N) as (F1 & F2).
      rewrite protocols_some in Ipr by (rewrite F1; discriminate). rewrite F1 in Ipr. destruct Ipr as [<-|[]]. split; [reflexivity|]. split; [exact F2|]. rewrite !app_nil_r.
      split; [exact N|]. intros g G. assert (G' : In g (flat_map opt_flags (t_option t))) by (apply in_app_or in G; destruct G; assumption).
      apply in_flat_map in G'. destruct G' as (o & _ & G'). apply (opt_flags_some o g G').
  - intros S. apply existsb_exists in S. destruct S as (o & Io & S). apply is_initial_iff in S.
    assert (E : t_protocol t = ["tcp"]) by (eapply tcp_option; [exact K|exact Io|apply in_or_app; left; exact S]).
    rewrite protocols_some in Ipr by (rewrite E; discriminate). rewrite E in Ipr. destruct Ipr as [<-|[]]. reflexivity.
  - destruct (t_source_interface t) as [x|] eqn:E; [right; apply (it_interfaces c t K); auto|left; reflexivity].
  - destruct (t_destination_interface t) as [x|] eqn:E; [right; apply (it_interfaces c t K); auto|left; reflexivity].
  - split; assumption.
Qed.

Lemma bail_part c t l (side : net -> combo) (x : packet -> ipaddr) : ipt_term_ok c t -> (forall n, In n l -> valid n /\ nver n = ic_ver c) ->
  (side = (fun n => bailout (Some n) None) /\ x = p_src \/ side = (fun n => bailout None (Some n)) /\ x = p_dst) ->
  part (ipt_traffic c) (ic_ver c) (chain_of c (t_name t)) "RETURN" (flat_map (fun k => fst (format_part c t [] k)) (map side l)) (fun p => covered l (x p)).
Proof.
  intros K Hl Hs. rewrite flat_map_concat_map, map_map, <- flat_map_concat_map.
  assert (Or : forall k, cb_proto k = "" /\ cb_sport k = [] /\ cb_dport k = [] /\ cb_flags k = [] /\ cb_type k = None /\ cb_code k = None /\ cb_track k = ([], []) /\ cb_in k = "" /\ cb_out k = "" /\
      cb_action k = "-j RETURN" -> (forall n, cb_src k = Some n -> valid n /\ nver n = ic_ver c) -> (forall n, cb_dst k = Some n -> valid n /\ nver n = ic_ver c) -> combo_ok c t k [] false "RETURN").
  { intros k (E1 & E2 & E3 & E4 & E5 & E6 & E7 & E8 & E9 & E10) S D. constructor; rewrite ?E1, ?E2, ?E3, ?E4, ?E5, ?E6, ?E7, ?E8, ?E9, ?E10; auto.
    - destruct (it_names c t K). split; [assumption|]. apply chain_plain; assumption.
    - intros X. exfalso. cbn in X. repeat destruct X as [X|X]; try discriminate X. destruct X.
    - intros r [].
    - unfold has_flags. rewrite E4, E7. discriminate.
    - discriminate.
    - split; [|discriminate]. split; [apply str_in_spec; reflexivity|exists []; vm_compute; reflexivity]. }
  assert (M : forall n p, In n l -> ipt_traffic c p -> combo_says (ic_ver c) (side n) (fun _ => True) p <-> covers n (x p)).
  { intros n p I Tp. unfold ipt_traffic in Tp. destruct Tp as (V1 & _ & V2 & _).
    assert (Cs : covers n (ic_ver c, snd (p_src p)) <-> covers n (p_src p)) by (destruct (p_src p); cbn in V1; subst; reflexivity).
    assert (Cd : covers n (ic_ver c, snd (p_dst p)) <-> covers n (p_dst p)) by (destruct (p_dst p); cbn in V2; subst; reflexivity).
    destruct Hs as [(-> & ->)|(-> & ->)]; unfold combo_says, bailout, combo_flags_say, has_flags, icmp_says, proto_says, ports_match;
      cbn [cb_proto cb_src cb_sport cb_dst cb_dport cb_flags cb_type cb_code cb_track cb_in cb_out net_says fst snd some orb type_says code_says].
    - rewrite Cs. split; [intros H; apply H|]. intros H. repeat match goal with |- _ /\ _ => split end; auto. discriminate.
    - rewrite Cd. split; [intros H; apply H|]. intros H. repeat match goal with |- _ /\ _ => split end; auto. discriminate. }
  assert (P : part (ipt_traffic c) (ic_ver c) (chain_of c (t_name t)) "RETURN" (flat_map (fun n => fst (format_part c t [] (side n))) l)
     (fun p => exists n, In n l /\ covers n (x p))).
  { apply (part_flat_map (ipt_traffic c) (ic_ver c) (chain_of c (t_name t)) "RETURN" (fun n => fst (format_part c t [] (side n))) (fun n p => covers n (x p)) l).
    intros n I. eapply part_iff; [intros p Tp; apply (M n p I Tp)|]. eapply (part_of_combo c t (side n) [] (fun _ => True) false "RETURN"); [|apply opts_nil].
    apply Or; destruct Hs as [(-> & _)|(-> & _)]; cbn; auto 12; intros z E; try discriminate E; injection E as <-; apply Hl, I. }
  eapply part_iff; [|exact P]. intros p _. reflexivity.
Qed.
Lemma bail_parts c t xs xd : ipt_term_ok c t -> (forall n, In n (xs ++ xd) -> valid n /\ nver n = ic_ver c) ->
  part (ipt_traffic c) (ic_ver c) (chain_of c (t_name t)) "RETURN"
    (flat_map (fun k => fst (format_part c t [] k)) (map (fun s => bailout (Some s) None) xs ++ map (fun d => bailout None (Some d)) xd))
    (fun p => covered xs (p_src p) \/ covered xd (p_dst p)).
Proof.
  intros K H. rewrite flat_map_app. apply part_app.
  - apply (bail_part c t xs (fun n => bailout (Some n) None) p_src); [exact K|intros n I; apply H, in_or_app; auto|left; auto].
  - apply (bail_part c t xd (fun n => bailout None (Some n)) p_dst); [exact K|intros n I; apply H, in_or_app; auto|right; auto].
Qed.

Definition jump_line (c : ipt_cfg) (t : term) : string := append "-A " (append (ic_filter c) (append " -j " (chain_of c (t_name t)))).
Definition decided (t : term) (p : packet) (o : string) : Prop := term_matches t p /\ exists a r, t_action t = a :: r /\ ipt_verdict a = Some o.
Lemma lines_filter v chain lines rs : lines_read v chain lines rs -> filter nonempty lines = lines.
Proof.
  induction 1 as [|line r lines rs (N & _) F IH]; [reflexivity|]. cbn [filter]. destruct line; [congruence|]. cbn [nonempty is_empty negb]. rewrite IH. reflexivity.
Qed.
Lemma verdict_target a o : o <> "RETURN" -> ipt_verdict a = Some o <-> o = target_of a.
Proof. unfold target_of. intros N. destruct (ipt_verdict a); split; congruence. Qed.

Lemma term_shape c t lines : ipt_term_ok c t -> ipt_term c t = Ok lines ->
  (lines = [] /\ forall p, ipt_traffic c p -> ~ term_matches t p) \/
  exists body rs, lines = append "-N " (chain_of c (t_name t)) :: (if ic_speedway c then body ++ [jump_line c t] else jump_line c t :: body) /\
    lines_read (ic_ver c) (chain_of c (t_name t)) body rs /\
    (forall r x, In r rs -> r_target r = Some x -> x = "LOG" \/ In x verdicts) /\
    forall p o, ipt_traffic c p -> o <> "RETURN" -> first_says (rule_gives p) rs o <-> decided t p o.
Proof.
  intros K H. pose proof (it_only c t K) as Only.
  assert (Fld := fun p (Tp : ipt_traffic c p) => ipt_fields c t p Only ltac:(unfold ipt_traffic in Tp; apply Tp)).
  unfold ipt_term in H. cbv zeta in H. fold (protocols_of t) in H.
  destruct (_ || _) eqn:Pl in H.
  { left. apply ok_inj in H. subst lines. split; [reflexivity|]. intros p Tp M. apply (Fld p Tp) in M. destruct M as ((M1 & M2) & _).
    apply orb_true_iff in Pl. destruct Pl as [Pl|Pl]; apply andb_true_iff in Pl; destruct Pl as (P1 & P2).
    - apply negb_true_iff, str_in_false in P2. destruct M1 as [M1|(q & I & <-)]; [rewrite M1 in P1; discriminate P1|]. exact (P2 I).
    - apply str_in_spec in P2. exact (M2 _ P2 eq_refl). }
  apply orb_false_iff in Pl. destruct Pl as (Pl1 & Pl2).
  assert (Plat : any_or (t_platform t) (eq (ipt_platform (ic_speedway c))) /\ none_of (t_platform_exclude t) (eq (ipt_platform (ic_speedway c)))).
  { split.
    - destruct (t_platform t) as [|q l] eqn:E; [left; reflexivity|right]. cbn [some andb] in Pl1. apply negb_false_iff, str_in_spec in Pl1.
      exists (ipt_platform (ic_speedway c)). auto.
    - intros q I E. subst q. destruct (t_platform_exclude t); [destruct I|]. cbn [some andb] in Pl2. apply str_in_false in Pl2. exact (Pl2 I). }
  destruct (match ic_ver c with V4 => _ | V6 => _ end) eqn:Fm in H.
  { left. apply ok_inj in H. subst lines. split; [reflexivity|]. intros p Tp M. apply (Fld p Tp) in M. destruct M as (_ & _ & _ & M & _).
    unfold ipt_traffic in Tp. destruct Tp as (_ & _ & _ & _ & T4 & T6 & _). destruct (it_family c t K) as (F6 & F4 & _ & _). destruct (ic_ver c); apply str_in_spec in Fm.
    - destruct M as [M|(q & I & E)]; [rewrite M in Fm; destruct Fm|]. rewrite (F4 eq_refl Fm q I) in E. apply (proj1 (T4 eq_refl)), E.
    - destruct M as [M|(q & I & E)]; [rewrite M in Fm; destruct Fm|]. rewrite (F6 eq_refl Fm q I) in E. apply (T6 eq_refl), E. }
  assert (Ver : t_verbatim t = [] /\ t_source_prefix t = [] /\ t_destination_prefix t = []) by (destruct Only as (_ & _ & _ & _ & O1 & _ & O2 & O3); repeat split; try assumption; tauto).
  destruct Ver as (Ev & Es & Ed). rewrite Ev, Es, Ed in H. cbn [some orb] in H.
  destruct (it_action c t K) as (a & rest & Ea & Ia). rewrite Ea in H.
  destruct (str_in "hopopt" (protocols_of t) && ver_eqb (ic_ver c) V4) eqn:Hop.
  { left. apply ok_inj in H. subst lines. split; [reflexivity|]. intros p Tp M. apply (Fld p Tp) in M. destruct M as (_ & _ & _ & M & _).
    apply andb_true_iff in Hop. destruct Hop as (Hop & V). apply str_in_spec in Hop. destruct (ic_ver c) eqn:Ec; [clear V|discriminate V].
    unfold ipt_traffic in Tp. rewrite Ec in Tp. destruct Tp as (_ & _ & _ & _ & T4 & _). destruct (it_family c t K) as (_ & _ & Fh & _).
    destruct (in_protocols t _ Hop) as [(X & _)|I]; [discriminate X|].
    destruct M as [M|(q & Iq & E)]; [rewrite M in I; destruct I|]. rewrite (Fh Ec I q Iq) in E. apply (proj2 (T4 eq_refl)), E. }
  destruct (calculate_spec _ _ _ _ _ (it_src c t K) (it_dst c t K)) as (s & xs & d & xd & Ecal & Hn & Ss & Sd). rewrite Ecal in H. cbn [bind] in H.
  assert (Of : forall p, ipt_traffic c p -> of_family (ic_ver c) (p_src p) /\ of_family (ic_ver c) (p_dst p)).
  { intros p Tp. unfold ipt_traffic in Tp. destruct Tp as (A1 & A2 & A3 & A4 & _). split; split; assumption. }
  destruct s as [|s0 sl]; cbn [some negb] in H.
  { left. apply ok_inj in H. subst lines. split; [reflexivity|]. intros p Tp M. apply (Fld p Tp) in M. destruct M as (_ & M & _).
    apply Ss in M; [|apply (Of p Tp)]. destruct M as ((n & [] & _) & _). }
  set (s := s0 :: sl) in *. clearbody s. clear s0 sl.
  destruct d as [|d0 dl]; cbn [some negb] in H.
  { left. apply ok_inj in H. subst lines. split; [reflexivity|]. intros p Tp M. apply (Fld p Tp) in M. destruct M as (_ & _ & M & _).
    apply Sd in M; [|apply (Of p Tp)]. destruct M as ((n & [] & _) & _). }
  set (d := d0 :: dl) in *. clearbody d. clear d0 dl.
  destruct (normalize_icmp_types _ _ _) as [types|e] eqn:Ety in H; [|discriminate H]. cbn [bind] in H.
  destruct (ipt_options _ _ _ _) as [r|e] eqn:Eop in H; [|discriminate H]. cbn [bind] in H.
  apply options_spec in Eop; [|intros o I; apply (it_options c t K o I)|intros x []]. subst r. cbn [app orb] in H.
  fold (value_texts t) in H. fold (all_options c t) in H. fold (type_list types) in H. fold (code_list (t_icmp_code t)) in H. fold (tracked c (protocols_of t) (t_option t)) in H.
  destruct (ipt_action (ic_ver c) a) as [act|] eqn:Eact; [|discriminate H]. apply ok_inj in H. right.
  fold (jump_line c t) in H.
  set (flags := flat_map opt_flags (t_option t)) in *. set (tr := tracked c (protocols_of t) (t_option t)) in *.
  destruct (it_names c t K) as (Nm & Nf). pose proof (chain_plain c (t_name t) Nm Nf) as Nc.
  destruct (silent_read _ _ _ _ (comments_silent (ipt_traffic c) c t Nc (it_comments c t K))) as (rc & Rc & Tc).
  assert (Hn' : forall n, In n (s ++ d) -> valid n /\ nver n = ic_ver c).
  { intros n I. apply Hn. apply in_app_or in I. destruct I as [I|I]; [apply in_or_app; auto|]. apply in_or_app. right. apply in_or_app. right. apply in_or_app. auto. }
  assert (Hx : forall n, In n (xs ++ xd) -> valid n /\ nver n = ic_ver c).
  { intros n I. apply Hn. apply in_or_app. right. apply in_app_or in I. apply in_or_app. destruct I as [I|I]; [auto|]. right. apply in_or_app. auto. }
  destruct (part_read _ _ _ _ _ _ (bail_parts c t xs xd K Hx)) as (rb & Rb & Pb).
  pose proof (combos_ok c t s d types flags tr act a rest K Ea Eact Hn' Ety eq_refl eq_refl Fm Hop) as Ck.
  destruct (part_read _ _ _ _ _ _ (part_of_combos c t (all_conds c t) _ _ _ _ Ck (all_options_say c t K))) as (rp & Rp & Pp).
  destruct (action_target _ _ _ Ia Eact) as (_ & A2 & A3).
  exists (ipt_comments c t ++ flat_map (fun k => fst (format_part c t [] k)) (map (fun s => bailout (Some s) None) xs ++ map (fun d => bailout None (Some d)) xd)
          ++ format_parts c t (all_options c t) (ipt_combos t s d (type_list types) (code_list (t_icmp_code t)) (protocols_of t) flags tr act)).
  exists (rc ++ rb ++ rp). split; [|split; [|split]].
  - subst lines. cbn [filter]. change (nonempty ("-N " ++ chain_of c (t_name t))) with true. cbv iota. rewrite !filter_app.
    rewrite (lines_filter _ _ _ _ Rc), (lines_filter _ _ _ _ Rb), (lines_filter _ _ _ _ Rp). unfold jump_line. destruct (ic_speedway c); cbn [filter app nonempty is_empty negb append].
    + rewrite !app_assoc. reflexivity.
    + rewrite app_nil_r, !app_assoc. reflexivity.
  - apply lines_read_app; [exact Rc|]. apply lines_read_app; assumption.
  - intros r x I E. apply in_app_or in I. destruct I as [I|I]; [rewrite (Tc r I) in E; discriminate E|]. apply in_app_or in I. destruct I as [I|I].
    + destruct Pb as (Pb & _). destruct (Pb r I) as [X|X]; rewrite X in E; injection E as <-; [auto|right; cbn; auto].
    + destruct Pp as (Pp & _). destruct (Pp r I) as [X|X]; rewrite X in E; injection E as <-; auto.
  - intros p o Tp No. rewrite (chain_rules _ _ _ _ _ _ _ p o Tc Pb Pp A3 Tp No). cbn beta.
    rewrite combos_meaning; [|exact Tp|intros X; destruct (tracked_spec c t K X) as (X1 & X2 & _); split; assumption|intros i Hi; apply (it_interfaces c t K i Hi)].
    rewrite (types_meaning c _ _ _ p Ety), codes_meaning, (protocols_say c t p K).
    unfold decided. rewrite (Fld p Tp).
    rewrite (options_meaning c (protocols_of t) (t_option t) p Tp); [| |].
    + rewrite <- (Ss _ (proj1 (Of p Tp))), <- (Sd _ (proj2 (Of p Tp))). rewrite <- (verdict_target a o No). unfold all_conds. fold flags. fold tr.
      assert (Ex : (exists a0 r0, t_action t = a0 :: r0 /\ ipt_verdict a0 = Some o) <-> ipt_verdict a = Some o).
      { rewrite Ea. split; [intros (a0 & r0 & E & Y); injection E as <- <-; exact Y|intros Y; exists a, rest; auto]. }
      rewrite Ex. split.
      * intros (Q1 & Q2 & Q3). destruct Plat. decompose [and] Q1. repeat match goal with |- _ /\ _ => split end; try assumption; intros X; apply Q2; auto.
      * intros (Q1 & Q3). decompose [and] Q1. split; [repeat match goal with |- _ /\ _ => split end; assumption|]. split; [|exact Q3]. intros [X|X]; contradiction.
    + intros x Ix. apply (it_options c t K x Ix).
    + intros x Ix Ex. destruct (it_option c t K x Ix) as [->|[(-> & _)|[(_ & [X|X])|(X & _)]]]; try discriminate Ex.
      * auto.
      * right. rewrite protocols_some by (rewrite X; discriminate). exact X.
      * exfalso. apply is_est_iff in Ex. cbn in Ex. repeat destruct Ex as [<-|Ex]; try destruct Ex; cbn in X; repeat destruct X as [X|X]; try discriminate X; destruct X.
Qed.
