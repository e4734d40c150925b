(** ASA access lists decide as the policy says. *)
From Coq Require Import Lia ZifyBool ZifyNat.
From Verif Require Import SpecAsa BaseFacts IPFacts PyStrFacts TextProofs WrapProofs GenProofs GenProofs2 CiscoProofs CiscoProofs2 CiscoTerm CiscoAcl CiscoDup CiscoGroupRead CiscoGroupTerm CiscoGroupAcl
  GceProofs QuietTerm ArubaProofs ArubaRead ArubaPolicy AsaProofs.
Local Open Scope string_scope.
Local Open Scope list_scope.
Local Open Scope Z_scope.

(** ** Terms the check accepts *)
Lemma accepted_quiet_logged platform k filters ps ts t :
  (forall s, str_in s ("owner" :: "logging" :: supported default_tokens) = false -> str_in s (supported k) = false) ->
  check_tokens platform k filters = Ok tt -> In (ps, ts) filters -> In platform ps -> In t ts -> meant_for platform t ->
  t_restrict_address_family t = None -> t_source_tag t = [] -> t_destination_tag t = [] -> t_ttl t <> Some 0 ->
  t_source_interface t <> Some "" -> t_destination_interface t <> Some "" -> quiet platform t.
Proof.
  intros D H I1 I2 I3 M E1 E2 E3 E4 E8 E9.
  pose proof (unsupported_not_set platform k filters ps ts t H I1 I2 I3 M) as U.
  assert (N : forall s, str_in s ("owner" :: "logging" :: supported default_tokens) = false -> ~ In s (supported k)) by (intros s E X; apply D in E; apply str_in_spec in X; congruence).
  destruct U as (U1 & U2 & _ & _ & _ & _ & U3 & _ & _ & _ & U4 & _ & U5 & U6 & U7 & U8 & U9 & U10 & U11 & U12 & U13 & U14 & U15 & U16 & U17 & U18 & U19 & U20 & U21 & U22 & U23 & U24 & U25).
  assert (O : forall {A} (o : option A) x, o = None \/ o = Some x -> o <> Some x -> o = None) by (intros A o x [X|X] Y; [exact X|contradiction]).
  assert (T : forall o, o = None \/ o = Some "" -> forall n, text_range o n) by (intros o [->| ->] n; [exact Logic.I|left; reflexivity]).
  constructor.
  - split; [apply U1|apply U2]; apply N; reflexivity.
  - apply U3, N; reflexivity.
  - apply U4, N; reflexivity.
  - split; [apply U5, N; reflexivity|]. split; [apply U6, N; reflexivity|]. split; [apply U7, N; reflexivity|apply U8, N; reflexivity].
  - auto.
  - split; [apply U9, N; reflexivity|]. split; [apply U10, N; reflexivity|apply U11, N; reflexivity].
  - split; [apply T, U21, N; reflexivity|]. split; [apply T, U22, N; reflexivity|].
    split; [apply T, U23, N; reflexivity|]. exact (O _ _ _ (U20 (N "ttl" eq_refl)) E4).
  - apply U13, N; reflexivity.
  - split; [exact M|]. split; [apply U18|apply U19]; apply N; reflexivity.
  - split; [apply U14, N; reflexivity|]. split; [apply U15, N; reflexivity|]. split; [apply U16, N; reflexivity|]. split; [apply U17, N; reflexivity|].
    split; [exact (O _ _ _ (U24 (N "source_interface" eq_refl)) E8)|]. split; [exact (O _ _ _ (U25 (N "destination_interface" eq_refl)) E9)|exact E1].
Qed.

(** ** Lines of a list *)
Definition steps (name : string) (ls : list string) (new : list (list string)) : Prop :=
  forall rs rest, asa_run rs (map split_ws ls ++ rest) = asa_run (rs ++ map (pair name) new) rest.
Lemma steps_nil name : steps name [] [].
Proof. intros rs rest. cbn [map]. rewrite app_nil_r. reflexivity. Qed.
Lemma steps_app name a b x y : steps name a x -> steps name b y -> steps name (a ++ b) (x ++ y).
Proof. intros A B rs rest. rewrite map_app, <- app_assoc, A, B, map_app, app_assoc. reflexivity. Qed.
Lemma steps_one name l new : (forall rs, asa_step rs (split_ws l) = Some (rs ++ map (pair name) new)) -> steps name [l] new.
Proof. intros H rs rest. cbn [map app asa_run]. rewrite H. reflexivity. Qed.
Lemma steps_quiet name ls : (forall l, In l ls -> forall rs, asa_step rs (split_ws l) = Some rs) -> steps name ls [].
Proof.
  induction ls as [|l ls IH]; intros H; [apply steps_nil|]. apply (steps_app name [l] ls [] []); [|apply IH; intros x I; apply H; right; exact I].
  apply steps_one. intros rs. cbn [map]. rewrite app_nil_r. apply H. left. reflexivity.
Qed.
Lemma remark_words name s : one_word name -> split_ws (asa_remark name s) = "access-list" :: name :: "remark" :: split_ws s.
Proof.
  intros W. unfold asa_remark. change ("access-list " ++ name ++ " remark " ++ s)%string with ("access-list" ++ " " ++ (name ++ " " ++ ("remark" ++ " " ++ s)))%string.
  rewrite !split_ws_space, W. reflexivity.
Qed.
Lemma remark_step name s rs : one_word name -> asa_step rs (split_ws (asa_remark name s)) = Some rs.
Proof. intros W. rewrite remark_words by exact W. reflexivity. Qed.
Lemma remark_line name s : one_word name -> has_char newline s = false -> has_char newline (asa_remark name s) = false.
Proof. intros W H. unfold asa_remark. rewrite !has_char_app, (word_line _ W), H. reflexivity. Qed.
Lemma split_newline s l : In l (split_char newline s) -> has_char newline l = false.
Proof.
  revert l. induction s as [|c s IH]; intros l; cbn [split_char]; [intros [<-|[]]; reflexivity|].
  destruct (Ascii.eqb c newline) eqn:E; [intros [<-|I]; [reflexivity|auto]|].
  destruct (split_char newline s) as [|h t]; [intros [<-|[]]|intros [<-|I]]; cbn [has_char].
  - rewrite E. reflexivity.
  - rewrite E. cbn [orb]. apply IH. left. reflexivity.
  - apply IH. right. exact I.
Qed.
Lemma slice_line s n : has_char newline s = false -> has_char newline (slice_to s n) = false.
Proof. intros H. destruct (slice_to_prefix s n) as (q & E). rewrite E, has_char_app in H. apply orb_false_iff in H. apply H. Qed.
(** Remarks, each on its line. *)
Lemma remarks_steps name ls : one_word name -> (forall l, In l ls -> exists s, l = asa_remark name s /\ has_char newline s = false) -> steps name (lns ls) [].
Proof.
  intros W H. rewrite lns_plain by (intros l I; destruct (H l I) as (s & -> & N); apply remark_line; assumption).
  apply steps_quiet. intros l I rs. destruct (H l I) as (s & -> & _). apply remark_step, W.
Qed.
Lemma comment_remarks (f : string -> string) name comments : one_word name -> (forall s, has_char newline s = false -> has_char newline (f s) = false) ->
  steps name (lns (flat_map (fun comment => map (fun line => asa_remark name (f line)) (split_char newline comment)) comments)) [].
Proof.
  intros W F. apply remarks_steps; [exact W|]. intros l I. apply in_flat_map in I. destruct I as (c & _ & I). apply in_map_iff in I. destruct I as (s & <- & I).
  eexists. split; [reflexivity|]. apply F, (split_newline c), I.
Qed.

(** ** Terms *)
Definition asa_cfg : cisco_cfg := mkCisco "ciscoasa" 4 false false true true.
Lemma asa_addresses_spec inc exc l : valid_list inc -> valid_list exc -> (inc = [] -> exc = []) -> asa_addresses inc exc = Ok l ->
  (forall a, In a l -> addr_ok a) /\ forall x, 0 <= x < 2 ^ 32 -> ((exists a, In a l /\ addr_covers a x) <-> side_matches inc exc (V4, x)).
Proof.
  intros V1 V2 X H. pose proof (cisco_addresses_spec asa_cfg inc exc) as S. unfold asa_addresses in H. unfold cisco_addresses in S.
  change (c_dsmo asa_cfg) with false in S. change (c_ver asa_cfg) with V4 in S. cbn [width] in S. destruct (some inc).
  - destruct (if some (address_of_version exc (Some V4)) then address_list_exclude (address_of_version inc (Some V4)) (address_of_version exc (Some V4)) true else Ok (address_of_version inc (Some V4))) as [a|e]; [|discriminate H].
    cbn [bind] in H, S. apply ok_inj in H. subst l. destruct a as [|n a]; cbn [some negb] in S.
    + specialize (S None ltac:(discriminate) V1 V2 X eq_refl). cbn beta iota in S. split; [intros a []|]. intros x _. split; [intros (a & [] & _)|intros M; destruct (S x M)].
    + specialize (S _ ltac:(discriminate) V1 V2 X eq_refl). cbn beta iota in S. destruct S as (F & S). rewrite Forall_forall in F. split.
      * intros o I. apply in_map_iff in I. destruct I as (m & <- & I). exact (F (ANet m) (in_map ANet _ _ I)).
      * intros x Hx. rewrite <- (S x Hx). split.
        -- intros (o & I & C). apply in_map_iff in I. destruct I as (m & <- & I). exists (ANet m). split; [apply in_map, I|exact C].
        -- intros (o & I & C). apply in_map_iff in I. destruct I as (m & <- & I). exists (Some m). split; [apply in_map, I|exact C].
  - specialize (S _ ltac:(discriminate) V1 V2 X eq_refl). cbn beta iota in S. destruct S as (_ & S). apply ok_inj in H. subst l. split; [intros a [<-|[]]; exact Logic.I|].
    intros x Hx. rewrite <- (S x Hx). split; [intros _; exists AAny; split; [left; reflexivity|exact Logic.I]|intros _; exists None; split; [left; reflexivity|exact Logic.I]].
Qed.
Lemma or_none_ports l : (forall r, In r l -> 0 <= fst r /\ 0 <= snd r) ->
  (forall o, In o (or_none l) -> oport_ok o /\ (o <> None -> l <> [])) /\ forall x, (exists o, In o (or_none l) /\ oport_covers o x) <-> ports_match l x.
Proof.
  intros H. destruct l as [|r0 l]; cbn [or_none].
  - split; [intros o [<-|[]]; split; [exact Logic.I|congruence]|]. intros x. split; [intros _; left; reflexivity|intros _; exists None; split; [left; reflexivity|exact Logic.I]].
  - split.
    + intros o I. apply in_map_iff in I. destruct I as (r & <- & I). split; [apply H, I|discriminate].
    + intros x. unfold ports_match, in_ports. split.
      * intros (o & I & C). apply in_map_iff in I. destruct I as (r & <- & I). right. exists r. split; [exact I|exact C].
      * intros [E|(r & I & C)]; [discriminate E|]. exists (Some r). split; [apply (in_map Some (r0 :: l)), I|exact C].
Qed.
Definition says_term (p : packet) (t : term) (a : string) : Prop := term_matches t p /\ exists w r, t_action t = w :: r /\ a = verdict w.
(** What a term writes, and what that says. *)
Definition block_says (t : term) (b : list (list string)) : Prop :=
  forall p, asa_traffic p -> forall a, (exists ws, In ws b /\ asa_rule_says p ws a) <-> says_term p t a.

(** Rules, each on its line. *)
Lemma rules_steps name L : (forall l, In l L -> exists ws, split_ws l = "access-list" :: name :: "extended" :: ws /\ has_char newline l = false) ->
  steps name (lns L) (map (fun l => skipn 3 (split_ws l)) L).
Proof.
  intros H. rewrite lns_plain by (intros l I; destruct (H l I) as (ws & _ & N); exact N).
  induction L as [|l L IH]; [apply steps_nil|]. apply (steps_app name [l] L [skipn 3 (split_ws l)]); [|apply IH; intros x I; apply H; right; exact I].
  apply steps_one. intros rs. destruct (H l (or_introl eq_refl)) as (ws & -> & _). reflexivity.
Qed.
Definition asa_lines (name action : string) (opts : list string) src dst sports dports protocol types : list string :=
  flat_map (fun sa => flat_map (fun da => flat_map (fun sp => flat_map (fun dp => flat_map (fun proto =>
    map (fun ty => asa_line name action proto sa sp da dp ty opts) types) protocol) dports) sports) dst) src.
Lemma in_lines name action opts src dst sports dports protocol types l :
  In l (asa_lines name action opts src dst sports dports protocol types) <->
  exists sa da sp dp proto ty, l = asa_line name action proto sa sp da dp ty opts /\ In sa src /\ In da dst /\ In sp sports /\ In dp dports /\ In proto protocol /\ In ty types.
Proof.
  unfold asa_lines. split.
  - intros I. apply in_flat_map in I. destruct I as (sa & I1 & I). apply in_flat_map in I. destruct I as (da & I2 & I). apply in_flat_map in I. destruct I as (sp & I3 & I).
    apply in_flat_map in I. destruct I as (dp & I4 & I). apply in_flat_map in I. destruct I as (proto & I5 & I). apply in_map_iff in I. destruct I as (ty & <- & I6).
    exists sa, da, sp, dp, proto, ty. auto 8.
  - intros (sa & da & sp & dp & proto & ty & -> & I1 & I2 & I3 & I4 & I5 & I6). apply in_flat_map. exists sa. split; [exact I1|]. apply in_flat_map. exists da. split; [exact I2|].
    apply in_flat_map. exists sp. split; [exact I3|]. apply in_flat_map. exists dp. split; [exact I4|]. apply in_flat_map. exists proto. split; [exact I5|]. apply in_map_iff. eauto.
Qed.
Lemma options_tail t : tail_ok (asa_options t).
Proof. unfold asa_options, tail_ok. destruct (some (t_logging t)); [destruct (str_in _ _)|]; cbn; auto. Qed.
Lemma asa_protocol_word q : q = "ip" \/ In q asa_protocols -> one_word q.
Proof. intros [->|I]; [reflexivity|]. repeat (destruct I as [<-|I]; [reflexivity|]). destruct I. Qed.
Lemma icmp_type_protocol types protocol r : types <> [] -> normalize_icmp_types types protocol (AfNum 4) = Ok r -> protocol = ["icmp"] \/ protocol = ["icmpv6"].
Proof.
  intros Nt H. destruct r as [l|]; [|apply normalize_icmp_none in H; congruence]. apply normalize_icmp_ok in H. destruct H as (_ & _ & n & table & nums & Fam & _).
  destruct Fam as [(E & _)|(E & _)]; auto.
Qed.
Record asa_good (t : term) : Prop := {
  ag_ok : asa_term_ok t;
  ag_meant : meant_for "ciscoasa" t;
  ag_quiet : quiet "ciscoasa" t;
  ag_actions : forall a, In a (t_action t) -> In a ["accept"; "deny"; "reject"; "next"; "reject-with-tcp-rst"] }.
Lemma asa_not_skipped t : meant_for "ciscoasa" t ->
  (some (t_platform t) && negb (str_in "ciscoasa" (t_platform t))) || (some (t_platform_exclude t) && str_in "ciscoasa" (t_platform_exclude t)) = false.
Proof. intros M. apply active_on_spec in M. unfold active_on in M. apply andb_true_iff in M. destruct M as (A & B). apply negb_true_iff in B. rewrite B, orb_false_r. destruct (some _), (str_in _ _); try discriminate A; reflexivity. Qed.
Lemma asa_skipped t : ~ meant_for "ciscoasa" t ->
  (some (t_platform t) && negb (str_in "ciscoasa" (t_platform t))) || (some (t_platform_exclude t) && str_in "ciscoasa" (t_platform_exclude t)) = true.
Proof. intros M. rewrite <- active_on_spec in M. unfold active_on in M. destruct (some _), (str_in _ _), (some _), (str_in _ _); try reflexivity; destruct M; reflexivity. Qed.
Lemma asa_term_reads name t s : one_word name -> asa_good t -> asa_term name t = Ok s ->
  exists b, steps name (split_char newline s) b /\ block_says t b.
Proof.
  intros W [K M Q Ga] H. destruct K as [Kn (act & ar & Ka & Nn) (S1 & S2 & S3) (D1 & D2 & D3) Kp Ko Kz Kopt Kv _ _]. unfold asa_term in H. rewrite (asa_not_skipped t M) in H.
  destruct (str_in "icmpv6" (t_protocol t)) eqn:E6.
  { apply str_in_spec in E6. apply Kp in E6. exfalso. revert E6. unfold asa_protocols. cbn. intuition discriminate. }
  rewrite Kv in H. cbv zeta in H. apply bind_ok in H. destruct H as (src & Es & H). apply bind_ok in H. destruct H as (dst & Ed & H). apply bind_ok in H. destruct H as (types & Et & H).
  rewrite Ka in H. apply ok_inj in H.
  destruct (asa_addresses_spec _ _ src S1 S2 S3 Es) as (Os & Cs). destruct (asa_addresses_spec _ _ dst D1 D2 D3 Ed) as (Od & Cd).
  destruct (or_none_ports (t_source_port t)) as (Op & Cp). { intros r I. apply Kz, in_or_app. left. exact I. }
  destruct (or_none_ports (t_destination_port t)) as (Oq & Cq). { intros r I. apply Kz, in_or_app. right. exact I. }
  assert (Ia : assoc act cisco_actions = Some (verdict act) /\ In (verdict act) ["permit"; "deny"]).
  { pose proof (Ga act ltac:(rewrite Ka; left; reflexivity)) as I. destruct I as [<-|[<-|[<-|[<-|[<-|[]]]]]]; try (split; [reflexivity|cbn; auto; fail]). congruence. }
  destruct Ia as (Ea & Iv). rewrite Ea in H.
  set (protocol := match t_protocol t with [] => ["ip"] | l => l end) in H.
  assert (Pq : forall q, In q protocol -> (q = "ip" \/ In q asa_protocols) /\ (t_source_port t ++ t_destination_port t <> [] -> In q with_ports)).
  { intros q I. unfold protocol in I. destruct (t_protocol t) as [|q0 qs] eqn:E.
    - destruct I as [<-|[]]. split; [left; reflexivity|]. intros N. destruct (Ko N) as (X & _). congruence.
    - split; [right; apply Kp; exact I|]. intros N. destruct (Ko N) as (_ & X). apply X, I. }
  assert (Cr : forall p, (exists q, In q protocol /\ (q = "ip" \/ In q asa_protocols /\ p_proto p = q)) <-> any_or (t_protocol t) (eq (p_proto p))).
  { intros p. unfold protocol, any_or. destruct (t_protocol t) as [|q0 qs] eqn:E.
    - split; [intros _; left; reflexivity|intros _; exists "ip"; split; [left; reflexivity|left; reflexivity]].
    - split.
      + intros (q & I & [->|(_ & X)]); right; [|exists q; split; [exact I|exact X]]. exfalso. apply Kp in I. revert I. unfold asa_protocols. cbn. intuition discriminate.
      + intros [X|(q & I & X)]; [discriminate X|]. exists q. split; [exact I|]. right. split; [apply Kp; exact I|exact X]. }
  assert (Ct : (forall ty, In ty types -> forall n, ty = Some n -> 0 <= n /\ protocol = ["icmp"]) /\
               forall p, (exists ty, In ty types /\ type_says V4 ty p) <-> any_or (t_icmp_type t) (eq (p_icmp_type p))).
  { destruct (t_icmp_type t) as [|i0 is] eqn:Ei; cbn [some] in Et.
    - apply ok_inj in Et. subst types. split; [intros ty [<-|[]]; discriminate|]. intros p. split; [intros _; left; reflexivity|intros _; exists None; split; [left; reflexivity|exact Logic.I]].
    - apply bind_ok in Et. destruct Et as (r & Er & Et). apply ok_inj in Et. rewrite <- Ei in *. assert (Ni : t_icmp_type t <> []) by congruence. split.
      + intros ty I n En. destruct (types_column asa_cfg t r (mkPacket (V4, 0) (V4, 0) "" 0 0 "" 0 (fun _ => False) (fun _ => False) (fun _ => False) (fun _ => False) (fun _ => False) "" "" 0 0 0 0 "" "" "" "" "" "" "" "" "") (or_introl eq_refl) Ni Er) as (T1 & _). rewrite Et in T1. split; [exact (T1 ty n I En)|].
        destruct (icmp_type_protocol _ _ _ Ni Er) as [E|E]; unfold protocol; rewrite E; [reflexivity|]. rewrite E in E6. discriminate E6.
      + intros p. destruct (types_column asa_cfg t r p (or_introl eq_refl) Ni Er) as (_ & _ & T3). rewrite Et in T3. exact T3. }
  destruct Ct as (Ot & Ct).
  assert (Ru : forall sa da sp dp proto ty, In sa src -> In da dst -> In sp (or_none (t_source_port t)) -> In dp (or_none (t_destination_port t)) -> In proto protocol -> In ty types ->
               rule_ok proto sa sp da dp ty (asa_options t)).
  { intros sa da sp dp proto ty I1 I2 I3 I4 I5 I6. destruct (Pq proto I5) as (P1 & P2). constructor.
    - apply asa_protocol_word, P1.
    - apply Os, I1.
    - apply Od, I2.
    - destruct (Op sp I3) as (X & Y). split; [exact X|]. intros N. apply P2. intros X'. apply app_eq_nil in X'. apply (Y N), X'.
    - destruct (Oq dp I4) as (X & Y). split; [exact X|]. intros N. apply P2. intros X'. apply app_eq_nil in X'. apply (Y N), X'.
    - intros n En. destruct (Ot ty I6 n En) as (X & Y). split; [exact X|]. rewrite Y in I5. destruct I5 as [<-|[]]. reflexivity.
    - apply options_tail. }
  assert (Wv : one_word (verdict act)) by (destruct Iv as [X|[X|[]]]; rewrite <- X; reflexivity).
  fold (asa_lines name (verdict act) (asa_options t) src dst (or_none (t_source_port t)) (or_none (t_destination_port t)) protocol types) in H.
  set (L := asa_lines _ _ _ _ _ _ _ _ _) in H.
  exists (map (fun l => skipn 3 (split_ws l)) L). subst s. split.
  - rewrite split_join_lns by discriminate. rewrite lns_app. apply (steps_app name _ _ [] _).
    + rewrite lns_cons. apply (steps_app name _ _ [] []).
      * apply steps_quiet. intros l [<-|[<-|[]]] rs; reflexivity.
      * rewrite lns_cons. apply (steps_app name _ _ [] []).
        -- apply remarks_steps; [exact W|]. intros l [<-|[]]. exists (t_name t). split; [reflexivity|apply word_line, Kn].
        -- apply (comment_remarks (fun l => slice_to l 100)); [exact W|]. intros l X. apply slice_line, X.
    + apply rules_steps. intros l I. apply in_lines in I. destruct I as (sa & da & sp & dp & proto & ty & -> & I1 & I2 & I3 & I4 & I5 & I6).
      eexists. apply (asa_line_words name (verdict act)); auto.
  - intros p T a. pose proof T as (Q1 & Q2 & Q3 & Q4 & Q5). unfold says_term. rewrite (quiet_matches "ciscoasa" t p Q Q5), Kopt.
    assert (Ep1 : p_src p = (V4, snd (p_src p))) by (destruct (p_src p); cbn in Q1 |- *; subst; reflexivity).
    assert (Ep2 : p_dst p = (V4, snd (p_dst p))) by (destruct (p_dst p); cbn in Q3 |- *; subst; reflexivity).
    specialize (Cs _ Q2). specialize (Cd _ Q4). rewrite <- Ep1 in Cs. rewrite <- Ep2 in Cd. specialize (Cp (p_sport p)). specialize (Cq (p_dport p)). specialize (Cr p). specialize (Ct p).
    split.
    + intros (ws & I & Sy). apply in_map_iff in I. destruct I as (l & <- & I). apply in_lines in I. destruct I as (sa & da & sp & dp & proto & ty & -> & I1 & I2 & I3 & I4 & I5 & I6).
      pose proof (Ru sa da sp dp proto ty I1 I2 I3 I4 I5 I6) as R. destruct (asa_line_words name (verdict act) _ _ _ _ _ _ _ W Wv R) as (X & _). rewrite X in Sy. cbn [skipn] in Sy.
      apply (asa_words_say _ _ _ _ _ _ _ _ p a R T) in Sy. destruct Sy as (<- & _ & Y1 & Y2 & Y3 & Y4 & Y5 & Y6).
      split; [|exists act, ar; auto]. split; [apply Cs; eauto|]. split; [apply Cd; eauto|]. split; [apply Cr; eauto|]. split; [apply Cp; eauto|]. split; [apply Cq; eauto|]. split; [intros o []|apply Ct; eauto].
    + intros ((Y1 & Y2 & Y3 & Y4 & Y5 & _ & Y6) & w & r & Ew & ->). assert (w = act) as -> by congruence.
      apply Cs in Y1. destruct Y1 as (sa & I1 & Y1). apply Cd in Y2. destruct Y2 as (da & I2 & Y2). apply Cr in Y3. destruct Y3 as (q & I5 & Y3).
      apply Cp in Y4. destruct Y4 as (sp & I3 & Y4). apply Cq in Y5. destruct Y5 as (dp & I4 & Y5). apply Ct in Y6. destruct Y6 as (ty & I6 & Y6).
      pose proof (Ru sa da sp dp q ty I1 I2 I3 I4 I5 I6) as R. destruct (asa_line_words name (verdict act) _ _ _ _ _ _ _ W Wv R) as (X & _).
      eexists. split; [apply in_map_iff; eexists; split; [reflexivity|apply in_lines; exists sa, da, sp, dp, q, ty; split; [reflexivity|auto 8]]|].
      rewrite X. cbn [skipn]. apply (asa_words_say _ _ _ _ _ _ _ _ p (verdict act) R T). auto 10.
Qed.

(** ** Policies *)
Definition asa_block (t : term) (b : list (list string)) : Prop := (meant_for "ciscoasa" t -> block_says t b) /\ (~ meant_for "ciscoasa" t -> b = []).
Lemma asa_meant_dec t : meant_for "ciscoasa" t \/ ~ meant_for "ciscoasa" t.
Proof. rewrite <- active_on_spec. destruct (active_on "ciscoasa" t); [left; reflexivity|right; discriminate]. Qed.
Lemma asa_terms_read name ts l : one_word name -> (forall t, In t ts -> meant_for "ciscoasa" t -> asa_good t) -> mapM (asa_term name) ts = Ok l ->
  exists blocks, Forall2 asa_block ts blocks /\ steps name (lns l) (concat blocks).
Proof.
  intros W G H. apply mapM_forall2 in H. induction H as [|t s ts l E H IH]; [exists []; split; [constructor|apply steps_nil]|].
  destruct (IH (fun u I => G u (or_intror I))) as (blocks & F & S).
  assert (X : exists b, asa_block t b /\ steps name (lns [s]) b).
  { destruct (asa_meant_dec t) as [M|M].
    - destruct (asa_term_reads name t s W (G t (or_introl eq_refl) M) E) as (b & Sb & B). exists b. split; [split; [auto|contradiction]|]. unfold lns. cbn [flat_map]. rewrite app_nil_r. exact Sb.
    - exists []. split; [split; [contradiction|reflexivity]|]. unfold asa_term in E. rewrite (asa_skipped t M) in E. apply ok_inj in E. subst s. apply steps_quiet. intros x [<-|[]] rs; reflexivity. }
  destruct X as (b & B & Sb). exists (b :: blocks). split; [constructor; assumption|]. rewrite lns_cons. cbn [concat]. apply steps_app; assumption.
Qed.
Lemma asa_filter_reads today f ls : one_word (asa_name (fst f)) -> (forall t, In t (live today (snd f)) -> meant_for "ciscoasa" t -> asa_good t) ->
  asa_filter today f = Ok ls ->
  ls <> [] /\ exists blocks, Forall2 asa_block (live today (snd f)) blocks /\
    forall rs rest, asa_run rs (map split_ws (lns ls) ++ rest) = asa_run (without (asa_name (fst f)) rs ++ map (pair (asa_name (fst f))) (concat blocks)) rest.
Proof.
  intros W G H. unfold asa_filter in H. cbv zeta in H. set (name := asa_name (fst f)) in *. apply bind_ok in H. destruct H as (l & El & H). apply ok_inj in H.
  destruct (asa_terms_read name _ l W G El) as (blocks & F & S). split; [subst ls; discriminate|]. exists blocks. split; [exact F|]. intros rs rest.
  set (clear := ("clear configure access-list " ++ name)%string) in *.
  assert (Wc : split_ws clear = ["clear"; "configure"; "access-list"; name]).
  { unfold clear. change ("clear configure access-list " ++ name)%string with ("clear" ++ " " ++ ("configure" ++ " " ++ ("access-list" ++ " " ++ name)))%string. rewrite !split_ws_space, W. reflexivity. }
  assert (Lc : lns [clear] = [clear]).
  { apply lns_plain. intros x [<-|[]]. unfold clear. rewrite has_char_app, (word_line _ W). reflexivity. }
  assert (St : steps name (lns (add_repository_tags (asa_remark name "") true true true false)) []).
  { apply remarks_steps; [exact W|]. intros x I. unfold add_repository_tags in I. cbn [app] in I.
    assert (X : forall s, (asa_remark name "" ++ s)%string = asa_remark name s) by (intros s; unfold asa_remark; rewrite !str_app_assoc; reflexivity).
    rewrite !X in I. destruct I as [<-|[<-|[<-|[]]]]; eexists; (split; [reflexivity|reflexivity]). }
  assert (Sc : steps name (lns (flat_map (fun comment => map (asa_remark name) (split_char newline comment)) (snd (fst f)))) []).
  { apply (comment_remarks (fun s => s)); auto. }
  subst ls. cbn [app]. rewrite lns_cons, Lc, lns_app, lns_app. cbn [app map asa_run]. rewrite Wc.
  change (asa_step rs ["clear"; "configure"; "access-list"; name]) with (Some (without name rs)). cbv iota.
  pose proof (steps_app name _ _ _ _ St (steps_app name _ _ _ _ Sc S)) as T. cbn [app] in T. apply T.
Qed.
Definition part_rules (name : string) (blocks : list (list (list string))) : list (string * list string) := map (pair name) (concat blocks).
Fixpoint all_rules (fs : list (asa_header * list term)) (parts : list (list (list (list string)))) : list (string * list string) :=
  match fs, parts with
  | f :: fs, b :: parts => part_rules (asa_name (fst f)) b ++ all_rules fs parts
  | _, _ => []
  end.
Lemma without_other name rs : (forall r, In r rs -> fst r <> name) -> without name rs = rs.
Proof.
  unfold without. induction rs as [|r rs IH]; [reflexivity|]. intros H. cbn [filter]. destruct (String.eqb (fst r) name) eqn:E; [apply String.eqb_eq in E; destruct (H r (or_introl eq_refl) E)|].
  cbn [negb]. f_equal. apply IH. intros x I. apply H. right. exact I.
Qed.
Lemma asa_filters_read today fs l : (forall f, In f fs -> one_word (asa_name (fst f)) /\ forall t, In t (live today (snd f)) -> meant_for "ciscoasa" t -> asa_good t) ->
  NoDup (map (fun f => asa_name (fst f)) fs) -> mapM (asa_filter today) fs = Ok l ->
  exists parts, Forall2 (fun f blocks => Forall2 asa_block (live today (snd f)) blocks) fs parts /\
    forall rs, (forall f r, In f fs -> In r rs -> fst r <> asa_name (fst f)) -> asa_run rs (map split_ws (lns (concat l))) = Some (rs ++ all_rules fs parts).
Proof.
  intros G N H. apply mapM_forall2 in H. induction H as [|f x fs l E H IH].
  - exists []. split; [constructor|]. intros rs _. cbn. rewrite app_nil_r. reflexivity.
  - inversion N as [|? ? Ni Nd]; subst. destruct (IH (fun g I => G g (or_intror I)) Nd) as (parts & F & R). destruct (G f (or_introl eq_refl)) as (W & Gt).
    destruct (asa_filter_reads today f x W Gt E) as (_ & blocks & Fb & Rb). exists (blocks :: parts). split; [constructor; assumption|]. intros rs D. cbn [concat]. rewrite lns_app, map_app, Rb.
    rewrite without_other by (intros r I; apply (D f r); [left; reflexivity|exact I]). rewrite R.
    + cbn [all_rules]. unfold part_rules. rewrite app_assoc. reflexivity.
    + intros g r Ig Ir. apply in_app_or in Ir. destruct Ir as [Ir|Ir]; [apply (D g r); [right; exact Ig|exact Ir]|]. apply in_map_iff in Ir. destruct Ir as (w & <- & _). cbn [fst].
      intros X. apply Ni. apply in_map_iff. exists g. split; [symmetry; exact X|exact Ig].
Qed.
Lemma asa_list_app a b name : asa_list (a ++ b) name = asa_list a name ++ asa_list b name.
Proof. apply flat_map_app. Qed.
Lemma asa_list_part name n blocks : asa_list (part_rules n blocks) name = if String.eqb n name then concat blocks else [].
Proof.
  unfold part_rules, asa_list. induction (concat blocks) as [|b bs IH]; [destruct (String.eqb n name); reflexivity|]. cbn [map flat_map fst snd]. rewrite IH. destruct (String.eqb n name); reflexivity.
Qed.
Lemma all_rules_list fs parts : Forall2 (fun _ _ => True) fs parts -> NoDup (map (fun f : asa_header * list term => asa_name (fst f)) fs) ->
  forall name, (forall f, In f fs -> asa_name (fst f) <> name) -> asa_list (all_rules fs parts) name = [].
Proof.
  induction 1 as [|f b fs parts _ F IH]; intros N name D; [reflexivity|]. cbn [all_rules]. rewrite asa_list_app, asa_list_part, (proj2 (String.eqb_neq _ _) (D f (or_introl eq_refl))). inversion N; subst.
  apply IH; [assumption|]. intros g I. apply D. right. exact I.
Qed.
Lemma all_rules_of today fs parts f : Forall2 (fun f blocks => Forall2 asa_block (live today (snd f)) blocks) fs parts -> NoDup (map (fun f : asa_header * list term => asa_name (fst f)) fs) ->
  In f fs -> exists blocks, Forall2 asa_block (live today (snd f)) blocks /\ asa_list (all_rules fs parts) (asa_name (fst f)) = concat blocks.
Proof.
  induction 1 as [|g b fs parts B F IH]; intros N I; [destruct I|]. inversion N as [|? ? Ni Nd]; subst. cbn [all_rules]. destruct I as [->|I].
  - exists b. split; [exact B|]. rewrite asa_list_app, asa_list_part, String.eqb_refl. rewrite all_rules_list; [apply app_nil_r| |exact Nd|].
    + clear - F. induction F; constructor; auto.
    + intros g I X. apply Ni. apply in_map_iff. exists g. auto.
  - destruct (IH Nd I) as (blocks & B' & E). exists blocks. split; [exact B'|]. rewrite asa_list_app, asa_list_part, E. destruct (String.eqb (asa_name (fst g)) (asa_name (fst f))) eqn:X; [|reflexivity].
    apply String.eqb_eq in X. destruct Ni. apply in_map_iff. exists f. auto.
Qed.
Lemma all_rules_named fs parts r : In r (all_rules fs parts) -> exists f, In f fs /\ fst r = asa_name (fst f).
Proof.
  revert parts. induction fs as [|f fs IH]; intros [|b parts] I; try (destruct I; fail). cbn [all_rules] in I. apply in_app_or in I. destruct I as [I|I].
  - apply in_map_iff in I. destruct I as (w & <- & _). exists f. split; [left; reflexivity|reflexivity].
  - destruct (IH parts I) as (g & J & E). exists g. split; [right; exact J|exact E].
Qed.
Lemma asa_asks_name f name : asa_asks f name -> asa_name (fst f) = name.
Proof. intros (rest & E). unfold asa_name. rewrite E. reflexivity. Qed.
Lemma names_apart fs : (forall f : asa_header * list term, In f fs -> exists name, asa_asks f name /\ one_word name) ->
  (forall fa f fb f' fc name, fs = fa ++ f :: fb ++ f' :: fc -> asa_asks f name -> ~ asa_asks f' name) -> NoDup (map (fun f => asa_name (fst f)) fs).
Proof.
  induction fs as [|f fs IH]; intros A D; [constructor|]. cbn [map]. constructor.
  - intros I. apply in_map_iff in I. destruct I as (g & E & I). apply in_split in I. destruct I as (fb & fc & ->). destruct (A f (or_introl eq_refl)) as (n & N & _).
    apply (D [] f fb g fc n eq_refl N). destruct (A g) as (m & Nm & _); [right; apply in_or_app; right; left; reflexivity|]. rewrite (asa_asks_name _ _ N), (asa_asks_name _ _ Nm) in E. subst m. exact Nm.
  - apply IH; [intros g I; apply A; right; exact I|]. intros fa g fb g' fc name E. apply (D (f :: fa) g fb g' fc name). rewrite E. reflexivity.
Qed.
Lemma asa_live_good today fs text f t : asa_policy_ok today fs -> asa_text today fs = Ok text -> In f fs -> In t (live today (snd f)) -> meant_for "ciscoasa" t -> asa_good t.
Proof.
  intros (P & _) H I L M. apply live_in in L. destruct L as (It & Fo). destruct (P f I) as ((name & (rest & En) & _) & K). specialize (K t It Fo M). unfold asa_text in H. apply bind_ok in H. destruct H as ([] & C & _).
  assert (J : In (["ciscoasa"], snd f) (map (fun f : asa_header * list term => (match fst (fst f) with Some _ => ["ciscoasa"] | None => [] end, snd f)) fs)) by (apply in_map_iff; exists f; rewrite En; auto).
  constructor; [exact K|exact M| |].
  - destruct (st_warned t K) as (B1 & B2 & B3 & B4). destruct (st_texts t K) as (B5 & B6).
    refine (accepted_quiet_logged "ciscoasa" asa_tokens _ _ _ t _ C J (or_introl eq_refl) It M B1 B2 B3 B4 B5 B6).
    intros s. change (supported asa_tokens) with (supported default_tokens ++ ["logging"; "owner"]). unfold str_in, memb. rewrite existsb_app. cbn [existsb]. intros X. apply orb_false_iff in X. destruct X as (X1 & X). apply orb_false_iff in X. destruct X as (X2 & X).
    rewrite X, X1, X2. reflexivity.
  - destruct (sub_tokens_listed "ciscoasa" asa_tokens _ _ _ t ["accept"; "deny"; "reject"; "next"; "reject-with-tcp-rst"] C J (or_introl eq_refl) It M) as (_ & A & _); [cbn; intuition discriminate|].
    exact (A eq_refl).
Qed.
Lemma asa_lists_decide today fs text : asa_policy_ok today fs -> asa_text today fs = Ok text ->
  exists rs, asa_config text = Some rs /\ (forall r, In r rs -> exists f, In f fs /\ asa_asks f (fst r)) /\
    forall f name p, In f fs -> asa_asks f name -> asa_traffic p ->
    forall o, asa_list_decides (asa_list rs name) p o <-> terms_decide (fun t => in_force today t /\ term_matches t p) (snd f) o.
Proof.
  intros P H. pose proof P as (P1 & P2). pose proof (fun f t I => asa_live_good today fs text f t P H I) as G. unfold asa_text in H. apply bind_ok in H. destruct H as ([] & _ & H). apply bind_ok in H. destruct H as (l & El & H). apply ok_inj in H.
  pose proof (names_apart fs (fun f I => proj1 (P1 f I)) P2) as N.
  destruct (asa_filters_read today fs l) as (parts & F & R); [|exact N|exact El|].
  { intros f I. destruct (P1 f I) as ((name & A & W) & _). split; [rewrite (asa_asks_name f name A); exact W|]. intros t. apply G, I. }
  exists (all_rules fs parts). split; [|split].
  - unfold asa_config. specialize (R [] (fun f r _ I => match I with end)). cbn [app] in R. destruct (concat l) as [|x xs] eqn:El'.
    + subst text. cbn [lns flat_map map asa_run] in R. cbn. exact R.
    + subst text. rewrite split_join_lns by discriminate. exact R.
  - intros r I. destruct (all_rules_named fs parts r I) as (f & J & E). exists f. split; [exact J|]. destruct (P1 f J) as ((name & A & _) & _). rewrite E, (asa_asks_name f name A). exact A.
  - intros f name p I A T o. destruct (all_rules_of today fs parts f F N I) as (blocks & B & E). rewrite (asa_asks_name f name A) in E. rewrite E. unfold asa_list_decides, terms_decide.
    transitivity (first_says (says_term p) (live today (snd f)) o).
    + apply first_says_blocks. assert (G' : forall t, In t (live today (snd f)) -> meant_for "ciscoasa" t -> asa_good t) by (intros t; apply G, I). clear - B T.
      induction B as [|t b ts bs (B1 & B2) B IH]; constructor; [|exact IH]. split.
      * destruct (asa_meant_dec t) as [M|M]; [apply (B1 M p T)|]. rewrite (B2 M). intros a. split; [intros (y & [] & _)|]. intros (X & _). exfalso. apply M.
        destruct T as (_ & _ & _ & _ & T). destruct X as (_ & _ & _ & _ & _ & _ & _ & (X1 & X2 & _) & _). rewrite T in X1, X2. split.
        -- destruct X1 as [X1|(q & J & <-)]; [left; exact X1|right; exact J].
        -- intros J. exact (X2 _ J eq_refl).
      * intros a a' (_ & w & r & E & ->) (_ & w' & r' & E' & ->). congruence.
    + unfold live. rewrite <- (first_says_filter _ (fun t => negb (expired today t)) (snd f)).
      * apply IptTable.first_says_iff. intros t a J. apply (live_in today (snd f) t) in J. unfold says_term. tauto.
      * intros t J X a ((Ft & _) & _). rewrite valid_expired, negb_involutive in X. apply valid_force in Ft. congruence.
Qed.
