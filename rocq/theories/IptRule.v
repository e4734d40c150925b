(** A term as a chain of its own: the packets its lines select. *)
From Coq Require Import Lia ZifyBool ZifyNat.
From Verif Require Import SpecIptables BaseFacts PyStrFacts TextProofs GenProofs GenProofs2 CiscoProofs CiscoProofs2 CiscoTerm CiscoAcl WrapProofs JuniperTerm
  IptText IPFacts PolicyProofs IptProofs IptLine IptPart IptCombo IptAddr IptTerm.
Local Open Scope string_scope.
Local Open Scope list_scope.
Local Open Scope Z_scope.

Lemma ipt_fields c t p : only_ipt_conditions t -> p_platform p = ipt_platform (ic_speedway c) ->
  term_matches t p <->
  (any_or (t_platform t) (eq (ipt_platform (ic_speedway c))) /\ none_of (t_platform_exclude t) (eq (ipt_platform (ic_speedway c)))) /\
  side_matches (t_source_address t) (t_source_address_exclude t) (p_src p) /\
  side_matches (t_destination_address t) (t_destination_address_exclude t) (p_dst p) /\
  any_or (t_protocol t) (eq (p_proto p)) /\ ports_match (t_source_port t) (p_sport p) /\ ports_match (t_destination_port t) (p_dport p) /\
  (forall o, In o (t_option t) -> p_option p o) /\
  (text_range (t_packet_length t) (p_length p) /\ text_range (t_fragment_offset t) (p_fragment p)) /\
  any_or (t_icmp_type t) (eq (p_icmp_type p)) /\ any_or (t_icmp_code t) (eq (p_icmp_code p)) /\
  opt_eq (t_source_interface t) (p_src_if p) /\ opt_eq (t_destination_interface t) (p_dst_if p).
Proof.
  intros (H1 & H2 & H3 & H4 & H5 & H6 & H7 & H8 & H9 & H10 & H11 & H12 & H13 & H14 & H15 & H16 & H17 & H18 & H19 & H20 & H21 & H22 & _) Hp.
  unfold term_matches, addresses_match, protocols_match, all_ports_match, prefixes_match, options_match, numbers_match, icmp_match, place_matches, link_matches.
  rewrite H1, H2, H3, H4, H5, H6, H7, H8, H9, H10, H11, H12, H13, H14, H15, H16, H17, H18, H19, H20, H21, H22, Hp.
  assert (E : forall A (P : A -> Prop), any_or [] P) by (intros A P; left; reflexivity).
  assert (F : forall A (P : A -> Prop), none_of [] P) by (intros A P a []).
  assert (M : forall x y, either_matches [] [] x y) by (intros x y; left; auto).
  assert (Pm : forall n, ports_match [] n) by (intros n; left; reflexivity).
  cbn [text_range opt_eq]. split.
  - intros ((_ & A1 & A2) & (B & _) & (_ & C1 & C2) & _ & (_ & D & _) & (N1 & _ & N2 & _) & (E1 & E2) & (P1 & P2 & _) & (_ & _ & _ & _ & L1 & L2 & _)).
    repeat match goal with |- _ /\ _ => split end; assumption.
  - intros ((P1 & P2) & A1 & A2 & B & C1 & C2 & D & (N2 & N1) & E1 & E2 & L1 & L2).
    repeat match goal with |- _ /\ _ => split end; auto.
Qed.

(** ** The combinations *)

Definition type_list (o : option (list Z)) : list (option Z) := match o with Some l => map Some l | None => [None] end.
Definition code_list (l : list Z) : list (option Z) := if some l then map Some l else [None].
Lemma in_combos t srcs dsts types codes protocol flags track action k : In k (ipt_combos t srcs dsts types codes protocol flags track action) <->
  exists s d ty co pr tr, In s srcs /\ In d dsts /\ In ty types /\ In co codes /\ In pr protocol /\ In tr (if track then ipt_track else [([], [])]) /\
    k = mkCombo pr (Some s) (t_source_port t) (Some d) (t_destination_port t) flags ty co tr
      (given_text (t_source_interface t)) (given_text (t_destination_interface t)) (some (t_logging t)) action.
Proof.
  unfold ipt_combos. split.
  - intros I. apply in_flat_map in I. destruct I as (s & Is & I). apply in_flat_map in I. destruct I as (d & Id & I). apply in_flat_map in I. destruct I as (ty & It & I).
    apply in_flat_map in I. destruct I as (co & Ic & I). apply in_flat_map in I. destruct I as (pr & Ip & I). apply in_map_iff in I. destruct I as (tr & <- & I).
    exists s, d, ty, co, pr, tr. repeat (split; [assumption|]). reflexivity.
  - intros (s & d & ty & co & pr & tr & Is & Id & It & Ic & Ip & Itr & ->).
    apply in_flat_map. exists s. split; [exact Is|]. apply in_flat_map. exists d. split; [exact Id|]. apply in_flat_map. exists ty. split; [exact It|].
    apply in_flat_map. exists co. split; [exact Ic|]. apply in_flat_map. exists pr. split; [exact Ip|]. apply in_map_iff. exists tr. split; [reflexivity|exact Itr].
Qed.
Definition flags_of_combo (F : list string) (tr : list string * list string) (p : packet) : Prop :=
  some F || some (fst tr) = true -> forall f, In f tcp_flags -> (meanings (F ++ fst tr) f /\ p_option p f <-> meanings (F ++ snd tr) f).
Lemma track_flags c F track p : ipt_traffic c p -> (track = true -> F = [] /\ ic_state c = false) ->
  (exists tr, In tr (if track then ipt_track else [([], [])]) /\ flags_of_combo F tr p) <-> flags_set F p /\ (track = true -> p_option p "established").
Proof.
  intros Tp H. unfold flags_of_combo. destruct track.
  - destruct (H eq_refl) as (-> & Es). rewrite <- (track_meaning c p Tp Es).
    assert (Nil : flags_set [] p) by (intros f _ (g & [] & _)). split.
    + intros (tr & I & X). split; [exact Nil|]. intros _. exists tr. split; [exact I|]. apply X. destruct I as [<-|[<-|[]]]; reflexivity.
    + intros (_ & X). destruct (X eq_refl) as (tr & I & Y). exists tr. split; [exact I|]. intros _. exact Y.
  - split.
    + intros (tr & [<-|[]] & X). split; [apply flags_equal; exact X|discriminate].
    + intros (X & _). exists ([], []). split; [left; reflexivity|]. cbn [fst snd some]. apply (proj2 (flags_equal F p)). exact X.
Qed.
Lemma combos_meaning c t srcs dsts types codes protocol flags track action co p :
  ipt_traffic c p -> (track = true -> flags = [] /\ ic_state c = false) ->
  (forall s, t_source_interface t = Some s \/ t_destination_interface t = Some s -> s <> "") ->
  (exists k, In k (ipt_combos t srcs dsts types codes protocol flags track action) /\ combo_says (ic_ver c) k co p) <->
  covered srcs (p_src p) /\ covered dsts (p_dst p) /\ (exists ty, In ty types /\ type_says (ic_ver c) ty p) /\ (exists x, In x codes /\ code_says x p) /\
  (exists q, In q protocol /\ proto_says q p) /\ (flags_set flags p /\ (track = true -> p_option p "established")) /\
  ports_match (t_source_port t) (p_sport p) /\ ports_match (t_destination_port t) (p_dport p) /\ co p /\
  opt_eq (t_source_interface t) (p_src_if p) /\ opt_eq (t_destination_interface t) (p_dst_if p).
Proof.
  intros Tp Ht Hi. rewrite <- (track_flags c flags track p Tp Ht).
  assert (Cs : forall n, covers n (ic_ver c, snd (p_src p)) <-> covers n (p_src p)) by (intros n; unfold ipt_traffic in Tp; destruct Tp as (E & _); destruct (p_src p); cbn in E; subst; reflexivity).
  assert (Cd : forall n, covers n (ic_ver c, snd (p_dst p)) <-> covers n (p_dst p)) by (intros n; unfold ipt_traffic in Tp; destruct Tp as (_ & _ & E & _); destruct (p_dst p); cbn in E; subst; reflexivity).
  assert (If : forall o (x : string), (forall s, o = Some s -> s <> "") -> (given_text o = "" \/ x = given_text o) <-> opt_eq o x).
  { intros o x N. destruct o as [s|]; cbn [given_text opt_eq]; [|tauto]. specialize (N s eq_refl). tauto. }
  split.
  - intros (k & I & S). apply in_combos in I. destruct I as (s & d & ty & x & pr & tr & Is & Id & It & Ic & Ip & Itr & ->).
    unfold combo_says in S. cbn [cb_proto cb_src cb_sport cb_dst cb_dport cb_flags cb_type cb_code cb_track cb_in cb_out net_says] in S.
    destruct S as (S1 & S2 & S3 & S4 & (S5 & S6) & S7 & S8 & S9 & S10 & S11). rewrite Cs in S7. rewrite Cd in S8. rewrite If in S10, S11 by auto.
    split; [exists s; auto|]. split; [exists d; auto|]. split; [exists ty; auto|]. split; [exists x; auto|]. split; [exists pr; auto|].
    split; [exists tr; split; [exact Itr|exact S2]|]. auto 10.
  - intros ((s & Is & S7) & (d & Id & S8) & (ty & It & S5) & (x & Ic & S6) & (pr & Ip & S1) & (tr & Itr & S2) & S3 & S4 & S9 & S10 & S11).
    eexists. split; [apply in_combos; exists s, d, ty, x, pr, tr; split; [exact Is|]; split; [exact Id|]; split; [exact It|]; split; [exact Ic|]; split; [exact Ip|]; split; [exact Itr|reflexivity]|].
    unfold combo_says. cbn [cb_proto cb_src cb_sport cb_dst cb_dport cb_flags cb_type cb_code cb_track cb_in cb_out net_says].
    rewrite Cs, Cd, !If by auto. split; [exact S1|]. split; [exact S2|]. split; [exact S3|]. split; [exact S4|]. split; [split; assumption|]. auto 10.
Qed.
Lemma codes_meaning l p : (exists x, In x (code_list l) /\ code_says x p) <-> any_or l (eq (p_icmp_code p)).
Proof.
  unfold code_list, any_or. destruct l as [|a l]; cbn [some].
  - split; [auto|]. intros _. exists None. split; [left; reflexivity|exact I].
  - set (m := a :: l). split.
    + intros (x & I & S). apply in_map_iff in I. destruct I as (n & <- & I). right. exists n. auto.
    + intros [X|(n & I & E)]; [discriminate X|]. exists (Some n). split; [apply in_map, I|exact E].
Qed.
Lemma types_meaning c types protocol r p : normalize_icmp_types types protocol (AfName (ipt_af (ic_ver c))) = Ok r ->
  (exists ty, In ty (type_list r) /\ type_says (ic_ver c) ty p) <-> any_or types (eq (p_icmp_type p)).
Proof.
  intros H. destruct types as [|x types0].
  - cbn [normalize_icmp_types some negb] in H. apply ok_inj in H. subst r. cbn [type_list]. split; [left; reflexivity|]. intros _. exists None. split; [left; reflexivity|exact I].
  - destruct (icmp_types_spec (x :: types0) protocol (AfName (ipt_af (ic_ver c))) (ic_ver c) r p) as (l & -> & Nl & _ & S); [discriminate| |exact H|].
    { destruct (ic_ver c); [left|right]; split; reflexivity. }
    rewrite <- S. cbn [type_list]. split.
    + intros (ty & I & T). apply in_map_iff in I. destruct I as (n & <- & I). exists n. auto.
    + intros (n & I & T). exists (Some n). split; [apply in_map, I|exact T].
Qed.
Definition no_packet : packet := mkPacket (V4, 0) (V4, 0) "" 0 0 "" 0 (fun _ => False) (fun _ => False) (fun _ => False) (fun _ => False) (fun _ => False)
  "" "" 0 0 0 0 "" "" "" "" "" "" "" "" "".
Lemma types_sound c types protocol r ty : normalize_icmp_types types protocol (AfName (ipt_af (ic_ver c))) = Ok r -> In ty (type_list r) ->
  match ty with None => types = [] | Some n => 0 <= n /\ (protocol = ["icmp"] /\ ic_ver c = V4 \/ protocol = ["icmpv6"] /\ ic_ver c = V6) end.
Proof.
  intros H I. destruct r as [l|].
  - cbn [type_list] in I. apply in_map_iff in I. destruct I as (n & <- & I). split.
    + destruct types as [|x types]; [discriminate H|].
      destruct (icmp_types_spec (x :: types) protocol (AfName (ipt_af (ic_ver c))) (ic_ver c) (Some l) (no_packet)) as (l' & E & _ & N & _); [discriminate| |exact H|].
      { destruct (ic_ver c); [left|right]; split; reflexivity. }
      injection E as <-. apply N, I.
    + apply normalize_icmp_ok in H. destruct H as (_ & _ & m & table & nums & Fam & Num & _).
      destruct (ic_ver c); destruct Num as [(E & _)|[(N & [E|E])|(N & E)]]; try discriminate E; destruct Fam as [(E1 & E2 & _)|(E1 & E2 & _)]; try (exfalso; lia); auto.
  - cbn [type_list] in I. destruct I as [<-|[]]. apply normalize_icmp_none in H. exact H.
Qed.

(** ** The lines of a term as commands *)

Definition rule_gives (p : packet) (r : rule) (o : string) : Prop := meets r p /\ exists t, r_target r = Some t /\ In t verdicts /\ o = t.
(** Lines that read as these rules of a chain. *)
Definition lines_read (v : ver) (chain : string) (lines : list string) (rs : list rule) : Prop :=
  Forall2 (fun line r => line <> "" /\ has_char newline line = false /\ read_line v line = Some (Rule chain r)) lines rs.
Lemma lines_read_app v chain a b ra rb : lines_read v chain a ra -> lines_read v chain b rb -> lines_read v chain (a ++ b) (ra ++ rb).
Proof. apply Forall2_app. Qed.
Lemma lines_rules T v chain : forall lines l, lines_say T v chain lines l ->
  exists rs, lines_read v chain lines rs /\ Forall2 (fun r (x : clause) => r_target r = snd x /\ forall p, T p -> meets r p <-> fst x p) rs l.
Proof.
  induction 1 as [|line x lines l (N & M & r & R & Tg & S) F (rs & A & B)]; [exists []; split; constructor|].
  exists (r :: rs). split; constructor; auto.
Qed.
Lemma Forall2_in_l {A B} (R : A -> B -> Prop) l m a : Forall2 R l m -> In a l -> exists b, In b m /\ R a b.
Proof. induction 1 as [|x y l m H F IH]; [intros []|]. intros [<-|I]; [exists y; split; [left; reflexivity|exact H]|]. destruct (IH I) as (b & X & Y). exists b. split; [right; exact X|exact Y]. Qed.
Lemma Forall2_in_r {A B} (R : A -> B -> Prop) l m b : Forall2 R l m -> In b m -> exists a, In a l /\ R a b.
Proof. induction 1 as [|x y l m H F IH]; [intros []|]. intros [<-|I]; [exists x; split; [left; reflexivity|exact H]|]. destruct (IH I) as (a & X & Y). exists a. split; [right; exact X|exact Y]. Qed.
(** The rules of a part. *)
Definition part_rules (T : packet -> Prop) (target : string) (rs : list rule) (cond : packet -> Prop) : Prop :=
  (forall r, In r rs -> r_target r = Some "LOG" \/ r_target r = Some target) /\
  forall p, T p -> (exists r, In r rs /\ r_target r = Some target /\ meets r p) <-> cond p.
Lemma part_read T v chain target lines cond : part T v chain target lines cond ->
  exists rs, lines_read v chain lines rs /\ part_rules T target rs cond.
Proof.
  intros (l & A & B & C). destruct (lines_rules T v chain lines l A) as (rs & R & F). exists rs. split; [exact R|]. split.
  - intros r I. destruct (Forall2_in_l _ _ _ _ F I) as ((x & t) & J & E & _). rewrite E. exact (B x t J).
  - intros p Tp. rewrite <- (C p Tp). split.
    + intros (r & I & E & M). destruct (Forall2_in_l _ _ _ _ F I) as ((x & t) & J & E' & S). cbn [snd fst] in *. rewrite E in E'. subst t. exists x. split; [exact J|]. apply S; assumption.
    + intros (x & I & X). destruct (Forall2_in_r _ _ _ _ F I) as (r & J & E & S). exists r. split; [exact J|]. split; [exact E|]. apply S; assumption.
Qed.
Lemma silent_read T v chain lines : silent T v chain lines -> exists rs, lines_read v chain lines rs /\ forall r, In r rs -> r_target r = None.
Proof.
  intros (l & A & B). destruct (lines_rules T v chain lines l A) as (rs & R & F). exists rs. split; [exact R|].
  intros r I. destruct (Forall2_in_l _ _ _ _ F I) as ((x & t) & J & E & _). rewrite E. exact (B x t J).
Qed.
Lemma part_gives T target rs cond p o : part_rules T target rs cond -> T p -> In target verdicts -> ((exists r, In r rs /\ rule_gives p r o) <-> cond p /\ o = target).
Proof.
  intros (A & B) Tp V. rewrite <- (B p Tp). unfold rule_gives. split.
  - intros (r & I & M & t & E & Vt & ->). destruct (A r I) as [L|L]; rewrite L in E; injection E as <-.
    + exfalso. cbn in Vt. repeat destruct Vt as [Vt|Vt]; try discriminate Vt. destruct Vt.
    + split; [exists r; auto|reflexivity].
  - intros ((r & I & E & M) & ->). exists r. split; [exact I|]. split; [exact M|]. exists target. auto.
Qed.
(** Comments, exits and rules together. *)
Lemma chain_rules (T : packet -> Prop) com bail body tgt cb cp p o : (forall r, In r com -> r_target r = None) -> part_rules T "RETURN" bail cb -> part_rules T tgt body cp ->
  In tgt verdicts -> T p -> o <> "RETURN" ->
  first_says (rule_gives p) (com ++ bail ++ body) o <-> cp p /\ ~ cb p /\ o = tgt.
Proof.
  intros C B P V Tp N. assert (R : In "RETURN" verdicts) by (cbn; auto).
  pose proof (fun o => part_gives T "RETURN" bail cb p o B Tp R) as GB. pose proof (fun o => part_gives T tgt body cp p o P Tp V) as GP.
  assert (NC : forall y a, In y com -> ~ rule_gives p y a) by (intros y a I (_ & t & E & _); rewrite (C y I) in E; discriminate E).
  rewrite !first_says_app. split.
  - intros [(b & x & a & -> & G & _)|([X|(X & Y)] & _)].
    + exfalso. eapply NC; [|exact G]. apply in_or_app. right. left. reflexivity.
    + exfalso. destruct X as (b & x & a & -> & G & _). apply N. apply (proj1 (GB o)). exists x. split; [apply in_or_app; right; left; reflexivity|exact G].
    + destruct X as (b & x & a & -> & G & _). assert (Q : cp p /\ o = tgt) by (apply GP; exists x; split; [apply in_or_app; right; left; reflexivity|exact G]).
      destruct Q as (Q1 & Q2). split; [exact Q1|]. split; [|exact Q2]. intros K. destruct (proj2 (GB "RETURN") (conj K eq_refl)) as (r & I & Z). apply N. symmetry. exact (Y r "RETURN" I Z).
  - intros (H1 & H2 & ->). right. split; [|intros y a I G; destruct (NC y a I G)]. right. split.
    + apply first_says_block; [|apply GP; auto]. intros y z a b I J Ga Gb.
      destruct (proj1 (GP a) (ex_intro _ y (conj I Ga))) as (_ & ->). destruct (proj1 (GP b) (ex_intro _ z (conj J Gb))) as (_ & ->). reflexivity.
    + intros y a I G. destruct H2. apply (proj1 (GB a) (ex_intro _ y (conj I G))).
Qed.

(** ** Names *)

Lemma chain_plain c name : plain_arg name -> plain_arg (ic_filter c) -> plain_arg (chain_of c name).
Proof.
  intros (N & P) (Nf & Pf). unfold chain_of. destruct (ic_filter c) as [|a f]; [congruence|]. cbn [first_char]. cbn [forall_char] in Pf. apply andb_true_iff in Pf.
  split; [discriminate|]. cbn [append forall_char]. rewrite (proj1 Pf), P. reflexivity.
Qed.
Lemma new_chain_reads v chain : plain_arg chain -> read_line v (append "-N " chain) = Some (NewChain chain) /\ has_char newline (append "-N " chain) = false.
Proof.
  intros P. assert (W : words ("-N " ++ chain)%string ["-N"; chain]) by (apply (words_key "-N" chain); [reflexivity|reflexivity|apply words_plain, P]).
  destruct W as (_ & W & N). split; [|exact N]. unfold read_line. change (starts_with "#" ("-N " ++ chain)%string) with false. cbv iota. rewrite W. reflexivity.
Qed.
Lemma jump_reads v filter chain : plain_arg filter -> plain_arg chain ->
  let line := append "-A " (append filter (append " -j " chain)) in
  line <> "" /\ has_char newline line = false /\ read_line v line = Some (Rule filter (mkRule [] (Some chain))).
Proof.
  intros P Q line.
  assert (W : words line ["-A"; filter; "-j"; chain]).
  { assert (El : line = (("-A " ++ filter) ++ String " " ("-j " ++ chain))%string) by (unfold line; cbn [append]; reflexivity). rewrite El.
    apply (words_cat _ _ ["-A"; filter] ["-j"; chain]); [apply append_words, P|]. apply (words_key "-j" chain); [reflexivity|reflexivity|apply words_plain, Q]. }
  split; [discriminate|]. split; [apply W|]. apply (rule_words v line filter ["-j"; chain]); [exact W|reflexivity|reflexivity].
Qed.

(** ** The term *)

Definition protocols_of (t : term) : list string := if some (t_protocol t) then t_protocol t else ["all"].
Definition target_of (a : string) : string := match ipt_verdict a with Some o => o | None => "RETURN" end.
Lemma opt_inj {A} (a b : A) : Some a = Some b -> b = a.
Proof. congruence. Qed.
Lemma action_target v a act : In a ["accept"; "deny"; "reject"; "reject-with-tcp-rst"; "next"] -> ipt_action v a = Some act ->
  chain_action v act (target_of a) /\ target_of a <> "LOG" /\ In (target_of a) verdicts.
Proof.
  intros J H. assert (Q : exists rest, In act ["-j ACCEPT"; "-j DROP"; "-j REJECT --reject-with icmp-host-prohibited"; "-j REJECT --reject-with icmp6-adm-prohibited"; "-j REJECT --reject-with tcp-reset"; "-j RETURN"]
    /\ split_ws act = "-j" :: target_of a :: rest /\ In (target_of a) ["ACCEPT"; "DROP"; "REJECT"; "RETURN"]).
  { cbn [In] in J. destruct J as [<-|[<-|[<-|[<-|[<-|[]]]]]]; (destruct v; vm_compute in H; apply opt_inj in H; rewrite H; exists (tl (tl (split_ws act))); rewrite H; (split; [apply str_in_spec; vm_compute; reflexivity|]); (split; [vm_compute; reflexivity|]); apply str_in_spec; vm_compute; reflexivity). }
  destruct Q as (rest & Q1 & Q2 & Q3). split; [split; [exact Q1|exists rest; exact Q2]|]. split; [|exact Q3].
  intros E. rewrite E in Q3. cbn [In] in Q3. repeat destruct Q3 as [Q3|Q3]; try discriminate Q3. destruct Q3.
Qed.
Lemma it_options c t : ipt_term_ok c t -> forall o, In o (t_option t) -> In o option_names /\ (o = "first-fragment" -> ic_ver c = V4).
Proof.
  intros K o I. destruct (it_option c t K o I) as [->|[(-> & V)|[(E & _)|(E & _)]]].
  - split; [left; reflexivity|discriminate].
  - split; [right; left; reflexivity|auto].
  - split; [right; right; apply in_or_app; left; exact E|]. intros ->. cbn in E. repeat destruct E as [E|E]; try discriminate E. destruct E.
  - split; [right; right; apply in_or_app; right; exact E|]. intros ->. cbn in E. repeat destruct E as [E|E]; try discriminate E. destruct E.
Qed.
Lemma is_est_iff o : is_est o = true <-> In o established_names.
Proof. apply str_in_spec. Qed.
Lemma is_initial_iff o : is_initial o = true <-> In o initial_names.
Proof. apply str_in_spec. Qed.
Lemma opt_flags_some o g : In g (opt_flags o) -> In o flag_options /\ In g flag_words.
Proof.
  unfold opt_flags, flag_table. cbn [assoc].
  repeat (destruct (String.eqb _ _) eqn:Q; [apply String.eqb_eq in Q; rewrite Q; intros [<-|[]]; split; apply str_in_spec; reflexivity|clear Q]). intros [].
Qed.
Lemma flags_some opts : flat_map opt_flags opts <> [] -> exists o, In o opts /\ In o flag_options.
Proof.
  intros N. destruct (flat_map opt_flags opts) as [|g l] eqn:E; [congruence|].
  assert (I : In g (flat_map opt_flags opts)) by (rewrite E; left; reflexivity). apply in_flat_map in I. destruct I as (o & I & G). exists o. split; [exact I|]. apply (opt_flags_some o g G).
Qed.
Lemma tracked_spec c t : ipt_term_ok c t -> tracked c (protocols_of t) (t_option t) = true ->
  flat_map opt_flags (t_option t) = [] /\ ic_state c = false /\ existsb is_initial (t_option t) = false /\ protocols_of t = ["tcp"].
Proof.
  intros K H. unfold tracked in H. apply andb_true_iff in H. destruct H as (H & E). apply andb_true_iff in H. destruct H as (S & Q). apply negb_true_iff in S.
  apply list_str_eqb_iff in Q. apply existsb_exists in E. destruct E as (o & I & E). apply is_est_iff in E.
  pose proof (proj2 (proj2 (it_once c t K)) S (ex_intro _ o (conj I E))) as N. repeat match goal with |- _ /\ _ => split end; auto.
  - destruct (flat_map opt_flags (t_option t)) as [|g l] eqn:F; [reflexivity|]. exfalso. apply N. destruct (flags_some (t_option t)) as (x & Ix & Fx); [rewrite F; discriminate|].
    exists x. split; [exact Ix|]. apply in_or_app. right. exact Fx.
  - destruct (existsb is_initial (t_option t)) eqn:F; [|reflexivity]. exfalso. apply N. apply existsb_exists in F. destruct F as (x & Ix & Fx). apply is_initial_iff in Fx.
    exists x. split; [exact Ix|]. apply in_or_app. left. exact Fx.
Qed.
Lemma tcp_option c t o : ipt_term_ok c t -> In o (t_option t) -> In o (initial_names ++ flag_options) -> t_protocol t = ["tcp"].
Proof.
  intros K I J. destruct (it_option c t K o I) as [->|[(-> & _)|[(E & _)|(_ & E)]]]; [| | |exact E]; exfalso.
  - cbn in J. repeat destruct J as [J|J]; try discriminate J. destruct J.
  - cbn in J. repeat destruct J as [J|J]; try discriminate J. destruct J.
  - cbn in E. repeat destruct E as [<-|E]; try destruct E; cbn in J; repeat destruct J as [J|J]; try discriminate J; destruct J.
Qed.
Definition value_texts (t : term) : list string :=
  (if given (t_packet_length t) then [append "-m length --length " (colons (given_text (t_packet_length t)))] else [])
  ++ (if given (t_fragment_offset t) then [append "-m u32 --u32 4&0x1FFF=" (colons (given_text (t_fragment_offset t)))] else []).
Definition all_options (c : ipt_cfg) (t : term) : list string := flat_map (opt_texts c) (t_option t) ++ value_texts t.
Definition all_conds (c : ipt_cfg) (t : term) (p : packet) : Prop :=
  (forall o, In o (t_option t) -> opt_cond c o p) /\ (text_range (t_packet_length t) (p_length p) /\ text_range (t_fragment_offset t) (p_fragment p)).
Lemma not_given o n : given o = false -> text_range o n.
Proof. destruct o as [s|]; [|intros _; exact I]. destruct s; [|discriminate]. intros _. cbn [text_range]. auto. Qed.
Lemma all_options_say c t : ipt_term_ok c t -> opts_say (ipt_traffic c) (ic_ver c) (all_options c t) (all_conds c t) (existsb is_initial (t_option t)).
Proof.
  intros K. destruct (it_values c t K) as (Kl & Ko & Kv). unfold all_options, all_conds.
  replace (existsb is_initial (t_option t)) with (existsb is_initial (t_option t) || (false || false)) by (rewrite orb_false_r; reflexivity).
  apply (opts_app (ipt_traffic c) (ic_ver c) _ (fun p => forall o, In o (t_option t) -> opt_cond c o p) _ _
           (fun p => text_range (t_packet_length t) (p_length p) /\ text_range (t_fragment_offset t) (p_fragment p))).
  - apply options_say_all; [apply it_options, K|apply (it_once c t K)].
  - unfold value_texts. apply (opts_app (ipt_traffic c) (ic_ver c) _ (fun p => text_range (t_packet_length t) (p_length p)) _ _ (fun p => text_range (t_fragment_offset t) (p_fragment p))); [| |reflexivity].
    + destruct (given (t_packet_length t)) eqn:G; [apply opts_free, free_length; assumption|]. eapply opts_iff; [|apply opts_nil]. intros p _. split; [intros _; apply not_given, G|auto].
    + destruct (given (t_fragment_offset t)) eqn:G; [rewrite (Kv eq_refl); apply opts_free, free_offset; assumption|]. eapply opts_iff; [|apply opts_nil]. intros p _. split; [intros _; apply not_given, G|auto].
  - apply andb_false_r.
Qed.
