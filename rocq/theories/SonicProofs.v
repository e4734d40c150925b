(** Proofs about the SONiC generator: the rules of a term match what the term matches. *)
From Coq Require Import Lia ZifyBool ZifyNat Permutation.
From Verif Require Import SpecSonic BaseFacts PyStrFacts IPFacts CollapseProofs ExcludeProofs PolicyProofs GenProofs GenProofs2 TextProofs IptText CiscoProofs CiscoProofs2 CiscoAcl GceProofs GceRules GceDecide QuietTerm OpenConfigProofs OpenConfigPolicy.
Local Open Scope string_scope.
Local Open Scope list_scope.
Local Open Scope Z_scope.

(** ** The rules of a term *)
Definition ptext (q : option pval) (n : option string) : Prop :=
  match q with None => n = None | Some (PNum k) => False | Some (PName s) => exists k, assoc s proto_map = Some k /\ n = Some (dec k) end.
Definition port_said (r : prange) : port_keys := sn_port r (None, None).
Definition tidy (l : list prange) (k : port_keys) : Prop := (l = [] -> k = (None, None)) /\ forall r, In r l -> sn_port r k = port_said r.
Lemma tidy_start l : tidy l (None, None).
Proof. split; reflexivity. Qed.
Lemma tidy_next l r : uniform l -> (forall r, In r l -> 0 <= fst r <= snd r /\ 0 < snd r) -> In r l -> tidy l (port_said r).
Proof.
  intros U H I. split; [intros E; rewrite E in I; destruct I|]. intros r' I'. destruct (H r I) as [_ A], (H r' I') as [_ B].
  unfold port_said, sn_port. destruct (Z.eqb_spec (snd r) 0) as [X|_]; [lia|]. destruct (Z.eqb_spec (snd r') 0) as [X|_]; [lia|]. rewrite !andb_false_r.
  unfold uniform, one_port in U. destruct U as [U|U]; pose proof (U r I) as X; pose proof (U r' I') as Y.
  - rewrite (proj2 (Z.eqb_eq _ _) X), (proj2 (Z.eqb_eq _ _) Y). reflexivity.
  - apply Z.eqb_neq in X, Y. rewrite X, Y. reflexivity.
Qed.
Lemma tidy_set l sp k : uniform l -> (forall r, In r l -> 0 <= fst r <= snd r /\ 0 < snd r) -> In sp (or_zero l) -> tidy l k ->
  sn_port sp k = port_said sp /\ tidy l (sn_port sp k).
Proof.
  intros U H I [T1 T2]. apply or_zero_in in I. destruct I as [(-> & E)|I].
  - rewrite (T1 E). split; [reflexivity|apply tidy_start].
  - rewrite (T2 sp I). split; [reflexivity|apply tidy_next; assumption].
Qed.
Section Rules.
  Context (t : term) (flags : bool) (types : list Z) (ss ds : list net) (ps : list pval).
  Hypothesis ports : forall r, In r (t_source_port t ++ t_destination_port t) -> 0 <= fst r <= snd r /\ 0 < snd r.
  Hypothesis us : uniform (t_source_port t).
  Hypothesis ud : uniform (t_destination_port t).
  Hypothesis tcp : flags = true -> ps = [PName "tcp"].
  Let fl (q : option pval) : bool := pnamed "tcp" q && flags.
  Let K0 (a : sn_ace) : Prop := (ps = [] -> sa_proto a = None) /\ (flags = false -> sa_flags a = false) /\ (types = [] -> sa_icmp a = None) /\
    (ss = [] -> sa_src a = None) /\ (ds = [] -> sa_dst a = None) /\ tidy (t_source_port t) (sa_sport a) /\ tidy (t_destination_port t) (sa_dport a).
  Let K1 q a := K0 a /\ (ptext q (sa_proto a) /\ sa_flags a = fl q).
  Let K2 q i a := K1 q a /\ sa_icmp a = option_map dec i.
  Let K3 q i s a := K2 q i a /\ sa_src a = option_map prefixlen_text s.
  Let K4 q i s d a := K3 q i s a /\ sa_dst a = option_map prefixlen_text d.
  Let K5 q i s d sp a := K4 q i s d a /\ sa_sport a = port_said sp.
  Let K6 q i s d sp dp a := K5 q i s d sp a /\ sa_dport a = port_said dp.
  Definition sn_made q i s d sp dp a : Prop :=
    ptext q (sa_proto a) /\ sa_flags a = pnamed "tcp" q && flags /\ sa_icmp a = option_map dec i /\ sa_src a = option_map prefixlen_text s /\
    sa_dst a = option_map prefixlen_text d /\ sa_sport a = port_said sp /\ sa_dport a = port_said dp.
  Lemma sn_rules_made_ rs : sn_rules t flags types ss ds ps = Ok rs ->
    forall r, In r rs <-> exists q, In q (or_any ps) /\ exists i, In i (or_any types) /\ exists s, In s (or_any ss) /\ exists d, In d (or_any ds) /\
      exists sp, In sp (or_zero (t_source_port t)) /\ exists dp, In dp (or_zero (t_destination_port t)) /\ sn_made q i s d sp dp r.
  Proof.
    intros E. unfold sn_rules in E. match type of E with bind ?m _ = _ => destruct m as [[a rs0]|] eqn:W; [|discriminate E] end.
    cbn [bind] in E. apply ok_inj in E. subst rs0.
    refine (proj2 (sweep_spec _ K0 _ _ _ _ _ _ _ W)).
    2: { unfold K0, sn_start. cbn [sa_proto sa_flags sa_icmp sa_src sa_dst sa_sport sa_dport]. repeat (split; [reflexivity|]). split; apply tidy_start. }
    clear W a rs. intros q a a' rs Iq I0 W.
    destruct (sn_proto flags q a) as [b|] eqn:Eb; [|discriminate W]. cbn [bind] in W.
    refine ((fun P => conj (proj1 (proj1 P)) (proj2 P)) (sweep_spec _ (K1 q) _ _ _ _ _ _ _ W)).
    2: { unfold K1, K0 in *. destruct I0 as (J1 & J2 & J3 & J4 & J5 & J6 & J7). unfold sn_proto in Eb.
         assert (X : exists n, b = mkSn n (if pnamed "tcp" q && flags then true else sa_flags a) (sa_icmp a) (sa_src a) (sa_dst a) (sa_sport a) (sa_dport a) /\ ptext q n /\ (ps = [] -> n = None)).
         { apply or_any_in in Iq. destruct Iq as [(-> & El)|(x & -> & Ix)].
           - cbn [bind] in Eb. apply ok_inj in Eb. subst b. eexists. split; [reflexivity|]. split; [exact (J1 El)|exact J1].
           - assert (N : ps <> []) by (intros X; rewrite X in Ix; destruct Ix). destruct x as [w|k]; [|discriminate Eb].
             destruct (assoc w proto_map) as [k|] eqn:Ek; [|discriminate Eb]. cbn [bind] in Eb. apply ok_inj in Eb. subst b. eexists. split; [reflexivity|].
             split; [exists k; auto|intros; contradiction]. }
         destruct X as (n & -> & X1 & X2). cbn [sa_proto sa_flags sa_icmp sa_src sa_dst sa_sport sa_dport].
         assert (F : (if pnamed "tcp" q && flags then true else sa_flags a) = fl q).
         { unfold fl. destruct flags eqn:Ef; [|rewrite andb_false_r; apply J2; reflexivity]. specialize (tcp eq_refl). rewrite tcp in Iq. destruct Iq as [<-|[]]. reflexivity. }
         rewrite F. split; [|auto]. split; [exact X2|]. split; [intros Ef; unfold fl; rewrite Ef; apply andb_false_r|]. auto 10. }
    clear W Eb a b a' rs I0 Iq. intros i a a' rs Ii I0 W. cbv zeta in W.
    refine ((fun P => conj (proj1 (proj1 P)) (proj2 P)) (sweep_spec _ (K2 q i) _ _ _ _ _ _ _ W)).
    2: { unfold K2, K1, K0 in *. apply or_any_in in Ii. destruct Ii as [(-> & El)|(n & -> & In_)].
         - cbn [sn_icmp option_map]. split; [exact I0|]. apply I0, El.
         - cbn [sn_icmp option_map sa_proto sa_flags sa_icmp sa_src sa_dst sa_sport sa_dport]. split; [|reflexivity]. destruct I0 as ((J1 & J2 & J3 & J4 & J5 & J6 & J7) & I0). split; [|exact I0].
           split; [exact J1|]. split; [exact J2|]. split; [intros X; rewrite X in In_; destruct In_|]. auto. }
    clear W a a' rs I0 Ii. intros s a a' rs Is I0 W. cbv zeta in W.
    refine ((fun P => conj (proj1 (proj1 P)) (proj2 P)) (sweep_spec _ (K3 q i s) _ _ _ _ _ _ _ W)).
    2: { unfold K3, K2, K1, K0 in *. apply or_any_in in Is. destruct Is as [(-> & El)|(n & -> & In_)].
         - cbn [sn_src option_map]. split; [exact I0|]. apply I0, El.
         - cbn [sn_src option_map sa_proto sa_flags sa_icmp sa_src sa_dst sa_sport sa_dport]. split; [|reflexivity]. destruct I0 as (((J1 & J2 & J3 & J4 & J5 & J6 & J7) & I0) & I1). split; [|exact I1]. split; [|exact I0].
           split; [exact J1|]. split; [exact J2|]. split; [exact J3|]. split; [intros X; rewrite X in In_; destruct In_|]. auto. }
    clear W a a' rs I0 Is. intros d a a' rs Id I0 W. cbv zeta in W.
    refine ((fun P => conj (proj1 (proj1 P)) (proj2 P)) (sweep_spec _ (K4 q i s d) _ _ _ _ _ _ _ W)).
    2: { unfold K4, K3, K2, K1, K0 in *. apply or_any_in in Id. destruct Id as [(-> & El)|(n & -> & In_)].
         - cbn [sn_dst option_map]. split; [exact I0|]. apply I0, El.
         - cbn [sn_dst option_map sa_proto sa_flags sa_icmp sa_src sa_dst sa_sport sa_dport]. split; [|reflexivity]. destruct I0 as ((((J1 & J2 & J3 & J4 & J5 & J6 & J7) & I0) & I1) & I2).
           split; [|exact I2]. split; [|exact I1]. split; [|exact I0].
           split; [exact J1|]. split; [exact J2|]. split; [exact J3|]. split; [exact J4|]. split; [intros X; rewrite X in In_; destruct In_|]. auto. }
    clear W a a' rs I0 Id. intros sp a a' rs Isp I0 W. cbv zeta in W.
    refine ((fun P => conj (proj1 (proj1 P)) (proj2 P)) (sweep_spec _ (K5 q i s d sp) _ _ _ _ _ _ _ W)).
    2: { unfold K5, K4, K3, K2, K1, K0 in *. cbn [sn_sport sa_proto sa_flags sa_icmp sa_src sa_dst sa_sport sa_dport].
         destruct I0 as (((((J1 & J2 & J3 & J4 & J5 & J6 & J7) & I0) & I1) & I2) & I3).
         destruct (tidy_set _ sp (sa_sport a) us (fun r I => ports r (in_or_app _ _ _ (or_introl I))) Isp J6) as [T1 T2]. auto 20. }
    clear W a a' rs I0 Isp. intros dp a a' rs Idp I0 W. cbv zeta in W. apply ok_inj, pair_equal_spec in W. destruct W as [<- <-].
    assert (I1 : K6 q i s d sp dp (sn_dport dp a)).
    { unfold K6, K5, K4, K3, K2, K1, K0 in *. cbn [sn_dport sa_proto sa_flags sa_icmp sa_src sa_dst sa_sport sa_dport].
      destruct I0 as ((((((J1 & J2 & J3 & J4 & J5 & J6 & J7) & I0) & I1) & I2) & I3) & I4).
      destruct (tidy_set _ dp (sa_dport a) ud (fun r I => ports r (in_or_app _ _ _ (or_intror I))) Idp J7) as [T1 T2]. auto 20. }
    split; [exact (proj1 I1)|]. revert I1. generalize (sn_dport dp a). intros b I1. unfold K6, K5, K4, K3, K2, K1 in I1.
    destruct I1 as ((((((_ & B1 & B2) & B3) & B4) & B5) & B6) & B7). intros r. cbn [In]. unfold sn_made. split.
    - intros [<-|[]]. auto 10.
    - intros (R1 & R2 & R3 & R4 & R5 & R6 & R7). left. destruct b as [b1 b2 b3 b4 b5 b6 b7], r as [c1 c2 c3 c4 c5 c6 c7].
      cbn [sa_proto sa_flags sa_icmp sa_src sa_dst sa_sport sa_dport] in *. unfold fl in B2.
      assert (P : b1 = c1). { destruct q as [[w|k]|]; cbn [ptext] in B1, R1; [|destruct B1|congruence]. destruct B1 as (k1 & X1 & ->), R1 as (k2 & X2 & ->). congruence. }
      congruence.
  Qed.
End Rules.
Definition sn_rules_made t flags types ss ds ps := sn_rules_made_ t flags types ss ds ps.

Lemma sn_rules_known t flags types ss ds ps rs : sn_rules t flags types ss ds ps = Ok rs -> forall q, In q ps -> exists s, q = PName s /\ In s (map fst proto_map).
Proof.
  intros E q I. unfold sn_rules in E. match type of E with bind ?m _ = _ => destruct m as [o|] eqn:W; [|discriminate E] end. clear E.
  destruct (sweep_ok _ _ _ _ W (Some q)) as (s5 & o5 & W5); [apply or_any_in; right; exists q; auto|].
  unfold sn_proto in W5. destruct q as [s|k]; [|discriminate W5]. destruct (assoc s proto_map) as [k|] eqn:E; [|discriminate W5].
  exists s. split; [reflexivity|]. apply assoc_in in E. apply in_map_iff. exists (s, k). auto.
Qed.

(** ** What a rule checks *)
Lemma assoc_skip {A} k key (f : A -> json) o m : String.eqb k key = false -> assoc k (opt_entry key f o ++ m) = assoc k m.
Proof. intros E. destruct o; cbn [opt_entry app assoc]; [rewrite E|]; reflexivity. Qed.
Lemma assoc_skip1 k key (x : json) m : String.eqb k key = false -> assoc k ([(key, x)] ++ m) = assoc k m.
Proof. intros E. cbn [app assoc]. rewrite E. reflexivity. Qed.
Lemma assoc_last k key (x : json) : String.eqb k key = false -> assoc k [(key, x)] = None.
Proof. intros E. cbn [assoc]. rewrite E. reflexivity. Qed.
Lemma assoc_hit {A} k key (f : A -> json) o m : String.eqb k key = true -> assoc k m = None -> assoc k (opt_entry key f o ++ m) = option_map f o.
Proof. intros E N. destruct o; cbn [opt_entry app assoc option_map]; [rewrite E; reflexivity|exact N]. Qed.
Ltac skip := repeat first [rewrite assoc_skip1 by reflexivity|rewrite assoc_skip by reflexivity|rewrite assoc_last by reflexivity].
Lemma path_one k (d : list (string * json)) o : assoc k d = o -> path [k] (JDict d) = o.
Proof. intros <-. cbn [path]. destruct (assoc k d); reflexivity. Qed.
Lemma json_paths v act a n : let e := sn_json v act a n in
  path ["PACKET_ACTION"] e = Some (JStr act) /\ path ["IP_PROTOCOL"] e = option_map JStr (sa_proto a) /\
  path ["TCP_FLAGS"] e = (if sa_flags a then Some (JList [JStr "0x10/0x10"; JStr "0x4/0x4"]) else None) /\
  path ["ICMP_TYPE"] e = (match v with V4 => option_map JStr (sa_icmp a) | V6 => None end) /\
  path ["ICMPV6_TYPE"] e = (match v with V6 => option_map JStr (sa_icmp a) | V4 => None end) /\
  path ["SRC_IP"] e = (match v with V4 => option_map JStr (sa_src a) | V6 => None end) /\
  path ["SRC_IPV6"] e = (match v with V6 => option_map JStr (sa_src a) | V4 => None end) /\
  path ["DST_IP"] e = (match v with V4 => option_map JStr (sa_dst a) | V6 => None end) /\
  path ["DST_IPV6"] e = (match v with V6 => option_map JStr (sa_dst a) | V4 => None end) /\
  path ["L4_SRC_PORT"] e = option_map JStr (fst (sa_sport a)) /\ path ["L4_SRC_PORT_RANGE"] e = option_map JStr (snd (sa_sport a)) /\
  path ["L4_DST_PORT"] e = option_map JStr (fst (sa_dport a)) /\ path ["L4_DST_PORT_RANGE"] e = option_map JStr (snd (sa_dport a)) /\
  path ["PRIORITY"] e = Some (JStr (dec n)).
Proof.
  cbv zeta. unfold sn_json. cbv zeta.
  destruct v; repeat split; apply path_one; skip; try reflexivity;
    (rewrite assoc_hit; [|reflexivity|skip; reflexivity]); first [reflexivity|destruct (sa_flags a); reflexivity].
Qed.
Definition port_given (k : port_keys) (n : Z) : Prop :=
  if_given (option_map JStr (fst k)) (number_says n) /\ if_given (option_map JStr (snd k)) (port_range_says n).
Lemma number_dec n k : 0 <= k -> number_says n (JStr (dec k)) <-> n = k.
Proof.
  intros H. unfold number_says. split.
  - intros (s & E & N). injection E as <-. rewrite dec_value in N by exact H. congruence.
  - intros ->. exists (dec k). split; [reflexivity|apply dec_value, H].
Qed.
Lemma range_split a b lo hi : 0 <= lo -> 0 <= hi -> append a (append "-" b) = append (dec lo) (append "-" (dec hi)) ->
  (exists n, numeral_value a = Some n) -> a = dec lo /\ b = dec hi.
Proof.
  intros L H E (n & N).
  assert (A : has_char "-" a = false) by exact (numeral_nodot a n "-" N eq_refl).
  assert (D : has_char "-" (dec lo) = false) by exact (dec_no "-" lo L eq_refl).
  pose proof (f_equal (before_char "-") E) as E1. pose proof (f_equal (after_char "-") E) as E2.
  rewrite (before_char_app "-" a _ A), (before_char_app "-" (dec lo) _ D) in E1. rewrite (after_char_app "-" a _ A), (after_char_app "-" (dec lo) _ D) in E2.
  cbn [before_char after_char append] in E1, E2. change (Ascii.eqb "-" "-") with true in E1, E2. cbv iota in E1, E2.
  rewrite !str_app_nil in E1. auto.
Qed.
Lemma port_said_meaning r n : 0 <= fst r <= snd r -> 0 < snd r -> port_given (port_said r) n <-> fst r <= n <= snd r.
Proof.
  intros H P. destruct r as [lo hi]. cbn [fst snd] in *. unfold port_said, sn_port, port_given. cbn [fst snd].
  destruct (Z.eqb_spec hi 0) as [E|_]; [lia|]. rewrite andb_false_r. destruct (Z.eqb_spec lo hi) as [<-|N]; cbn [fst snd option_map if_given].
  - rewrite number_dec by lia. intuition lia.
  - unfold port_range_says. split.
    + intros (_ & a & b & x & y & E & A & B & C). assert (Q : append a (append "-" b) = append (dec lo) (append "-" (dec hi))) by (injection E; auto).
      apply range_split in Q; [|lia|lia|eexists; exact A]. destruct Q as [-> ->]. rewrite dec_value in A, B by lia.
      injection A as <-. injection B as <-. exact C.
    + intros B. split; [exact Logic.I|]. exists (dec lo), (dec hi), lo, hi. rewrite !dec_value by lia. auto.
Qed.
Lemma sn_ports_meaning l n : (forall r, In r l -> 0 <= fst r <= snd r /\ 0 < snd r) ->
  (exists r, In r (or_zero l) /\ port_given (port_said r) n) <-> ports_match l n.
Proof.
  intros H. unfold ports_match, in_ports. split.
  - intros (r & I & S). apply or_zero_in in I. destruct I as [[_ E]|I]; [left; exact E|right]. destruct (H r I) as [H1 H2].
    apply (port_said_meaning r n H1 H2) in S. exists r. split; [exact I|exact S].
  - intros [->|(r & I & S)].
    + exists (0, 0). split; [left; reflexivity|split; exact Logic.I].
    + exists r. split; [apply or_zero_in; auto|]. destruct (H r I) as [H1 H2]. apply (port_said_meaning r n H1 H2). exact S.
Qed.
(** One side, for the family [w] of the rule. *)
Definition own_side (w : ver) (l : list net) (x : ipaddr) : Prop := address_of_version l (Some w) = [] \/ covered (address_of_version l (Some w)) x.
Lemma sn_side_meaning w l x : valid_list l -> on_net x ->
  (exists s, In s (or_any (address_of_version l (Some w))) /\ if_given (option_map JStr (option_map prefixlen_text s)) (address_says w x)) <-> own_side w l x.
Proof.
  intros V O. unfold valid_list in V. rewrite Forall_forall in V. unfold own_side. split.
  - intros (s & I & S). apply or_any_in in I. destruct I as [(-> & E)|(n & -> & I)]; [left; exact E|right]. exists n. split; [exact I|].
    destruct S as (F & s & E & S). injection E as <-. apply of_version in I. apply range_text; [apply V, I|exact O|exact S].
  - intros [E|(n & I & C)].
    + rewrite E. exists None. split; [left; reflexivity|exact Logic.I].
    + exists (Some n). split; [apply or_any_in; right; exists n; auto|]. cbn [option_map if_given]. apply of_version in I. destruct I as [I <-].
      split; [symmetry; apply C|]. exists (prefixlen_text n). split; [reflexivity|]. apply range_text; [apply V, I|exact O|exact C].
Qed.
Lemma sn_usable_sound w l x : sn_usable w l = true -> own_side w l x -> l = [] \/ covered l x.
Proof.
  intros U [E|(n & I & C)].
  - left. unfold sn_usable in U. cbv zeta in U. rewrite E in U. cbn [some negb andb] in U. destruct l as [|n l]; [reflexivity|]. exfalso.
    apply negb_true_iff in U.
    assert (X : In n (address_of_version (n :: l) (Some w)) \/ In n (address_of_version (n :: l) (Some (match w with V4 => V6 | V6 => V4 end)))).
    { destruct (nver n) eqn:En, w; [left|right|right|left]; apply of_version; (split; [left; reflexivity|exact En]). }
    destruct X as [X|X]; [rewrite E in X; destruct X|].
    destruct (address_of_version (n :: l) _); [destruct X|discriminate U].
  - right. apply of_version in I. exists n. tauto.
Qed.
Lemma sn_usable_complete v l x : fst x = v -> l = [] \/ covered l x -> sn_usable v l = true /\ own_side v l x.
Proof.
  intros F [->|(n & I & C)]; [split; [destruct v; reflexivity|left; reflexivity]|].
  assert (X : In n (address_of_version l (Some v))) by (apply of_version; split; [exact I|destruct C; congruence]).
  split; [|right; exists n; auto]. unfold sn_usable. cbv zeta. destruct (address_of_version l (Some v)); [destruct X|reflexivity].
Qed.

(** ** What the rules of a term say *)
Lemma icmp_types_v w : icmp_types_of w = match w with V4 => icmp_type4 | V6 => icmp_type6 end.
Proof. reflexivity. Qed.
Lemma rule_says_made w act a n p o : sn_rule_says (sn_json w act a n) p o <->
  o = act /\ if_given (option_map JStr (sa_proto a)) (proto_number_says p) /\
  (sa_flags a = true -> p_proto p = "tcp" /\ (p_option p "ack" \/ p_option p "rst")) /\
  if_given (option_map JStr (sa_icmp a)) (icmp_number_says (icmp_types_of w) p) /\
  if_given (option_map JStr (sa_src a)) (address_says w (p_src p)) /\ if_given (option_map JStr (sa_dst a)) (address_says w (p_dst p)) /\
  port_given (sa_sport a) (p_sport p) /\ port_given (sa_dport a) (p_dport p).
Proof.
  destruct (json_paths w act a n) as (E1 & E2 & E3 & E4 & E5 & E6 & E7 & E8 & E9 & E10 & E11 & E12 & E13 & _). unfold sn_rule_says. rewrite E1.
  assert (F : if_given (if sa_flags a then Some (JList [JStr "0x10/0x10"; JStr "0x4/0x4"]) else None) (flags_say p) <->
    (sa_flags a = true -> p_proto p = "tcp" /\ (p_option p "ack" \/ p_option p "rst"))).
  { destruct (sa_flags a); cbn [if_given]; [|split; [discriminate|intros _; exact Logic.I]]. unfold flags_say. split.
    - intros (l & E & X & [[_ Y]|[_ Y]]) _; auto.
    - intros X. destruct (X eq_refl) as [X1 X2]. eexists. split; [reflexivity|]. split; [exact X1|]. destruct X2; [left|right]; (split; [cbn [In]; auto|assumption]). }
  unfold port_given. split.
  - intros [[X1 X2 X3 X4 X5 X6 X7 X8 X9 X10 X11 X12] Y]. unfold given in *.
    rewrite E2 in X1. rewrite E3 in X2. rewrite E4 in X3. rewrite E5 in X4. rewrite E6 in X5. rewrite E7 in X6. rewrite E8 in X7. rewrite E9 in X8.
    rewrite E10 in X9. rewrite E11 in X10. rewrite E12 in X11. rewrite E13 in X12.
    split; [congruence|]. split; [exact X1|]. split; [apply F, X2|]. destruct w; auto 10.
  - intros (-> & X1 & X2 & X3 & X4 & X5 & [X6 X7] & X8 & X9). split; [|reflexivity]. apply F in X2.
    constructor; unfold given; rewrite ?E2, ?E3, ?E4, ?E5, ?E6, ?E7, ?E8, ?E9, ?E10, ?E11, ?E12, ?E13; try assumption; destruct w; cbn [if_given]; try exact Logic.I; assumption.
Qed.
Lemma sn_proto_meaning names p : (forall s, In s names -> In s (map fst proto_map)) -> ~ In "all" names ->
  (exists q n, In q (or_any (map PName names)) /\ ptext q n /\ if_given (option_map JStr n) (proto_number_says p)) <-> any_or names (eq (p_proto p)).
Proof.
  intros K Na. assert (D : forall s k, In (s, k) proto_map -> In s names -> 0 <= k).
  { assert (X : forallb (fun e : string * Z => String.eqb (fst e) "all" || (0 <=? snd e)) proto_map = true) by reflexivity. rewrite forallb_forall in X.
    intros s k I J. apply X in I. cbn [fst snd] in I. destruct (String.eqb_spec s "all") as [->|_]; [contradiction|]. cbn [orb] in I. lia. }
  unfold any_or. split.
  - intros (q & n & I & N & S). apply or_any_in in I. destruct I as [(-> & E)|(x & -> & I)].
    + left. destruct names; [reflexivity|discriminate E].
    + right. apply in_map_iff in I. destruct I as (s & <- & I). exists s. split; [exact I|]. cbn [ptext] in N. destruct N as (k & E & ->).
      apply assoc_in in E. destruct S as (m & M & S). apply number_dec in M; [|exact (D s k E I)]. subst m. exact (proto_inj _ _ _ S E).
  - intros [->|(s & I & E)].
    + exists None, None. split; [left; reflexivity|]. split; [reflexivity|exact Logic.I].
    + destruct (assoc_some s proto_map (K s I)) as (k & E2). exists (Some (PName s)), (Some (dec k)).
      split; [apply or_any_in; right; exists (PName s); split; [reflexivity|apply in_map, I]|]. split; [exists k; auto|].
      apply assoc_in in E2. exists k. split; [apply number_dec; [exact (D s k E2 I)|reflexivity]|]. rewrite E. exact E2.
Qed.
Lemma kept_names names ps : Forall2 kept_proto names ps -> (forall q, In q ps -> exists s, q = PName s /\ In s (map fst proto_map)) ->
  ps = map PName names /\ forall s, In s names -> In s (map fst proto_map).
Proof.
  induction 1 as [|s q names ps K F IH]; intros H; [split; [reflexivity|intros s []]|].
  destruct IH as [-> IH]; [intros x I; apply H; right; exact I|]. destruct (H q (or_introl eq_refl)) as (w & -> & W).
  destruct K as [E|[_ E]]; [|discriminate E]. injection E as ->. split; [reflexivity|]. intros x [<-|I]; [exact W|exact (IH x I)].
Qed.
Lemma term_text names : map pval_text (map PName names) = names.
Proof. induction names as [|s l IH]; [reflexivity|]. cbn [map pval_text]. rewrite IH. reflexivity. Qed.
(** The ICMP types of the rules of family [w]. *)
Lemma sn_icmp_meaning w t types p : (if some (t_icmp_type t) then normalize_icmp_types (t_icmp_type t) (t_protocol t) (AfNum (ver_number w)) else Ok None) = Ok types ->
  (t_icmp_type t <> [] -> t_protocol t = [match w with V4 => "icmp" | V6 => "icmpv6" end]) /\
  ((exists i, In i (or_any (match types with Some l => l | None => [] end)) /\ if_given (option_map JStr (option_map dec i)) (icmp_number_says (icmp_types_of w) p)) <->
   any_or (t_icmp_type t) (eq (p_icmp_type p))).
Proof.
  destruct (t_icmp_type t) as [|x xs] eqn:Et; cbn [some].
  - intros E. apply ok_inj in E. subst types. split; [congruence|]. split; [left; reflexivity|]. intros _. exists None. split; [left; reflexivity|exact Logic.I].
  - rewrite <- Et. assert (N : t_icmp_type t <> []) by (rewrite Et; discriminate). clear Et x xs. intros E.
    pose (c := mkCisco "x" (ver_number w) false false false false).
    assert (Cv : c_ver c = w) by (unfold c_ver, c; destruct w; reflexivity).
    assert (Ca : c_af c = 4 \/ c_af c = 6) by (destruct w; cbn; auto).
    destruct (types_column c t types p Ca N E) as (T1 & T2 & T3). rewrite Cv in T3. split.
    + intros _. destruct types as [l|]; [|apply normalize_icmp_none in E; congruence]. apply normalize_icmp_ok in E.
      destruct E as (_ & _ & n & table & nums & Fam & Num & _).
      destruct Num as [(E & _)|[(_ & [E|E])|(_ & E)]]; try discriminate E. injection E as E.
      destruct Fam as [(-> & -> & _)|(-> & -> & _)]; destruct w; try discriminate E; reflexivity.
    + rewrite <- T3. clear T3. destruct types as [l|]; [|apply normalize_icmp_none in E; congruence].
      assert (Ne : l <> []).
      { intros ->. apply normalize_icmp_ok in E. destruct E as (_ & _ & n & table & nums & _ & _ & F & P). apply Permutation_nil in P. subst nums. inversion F. congruence. }
      assert (Eo : or_any l = map Some l) by (destruct l; [congruence|reflexivity]). rewrite Eo.
      split; intros (i & I & S); exists i; (split; [exact I|]); apply in_map_iff in I as I'; destruct I' as (k & <- & I'); cbn [option_map if_given type_says] in *.
      * destruct S as (m & M & S). apply number_dec in M; [|exact (T1 _ _ I eq_refl)]. subst m. exact S.
      * exists k. split; [apply number_dec; [exact (T1 _ _ I eq_refl)|reflexivity]|exact S].
Qed.
Lemma sn_rules_match w t types ps rs act p o n :
  sn_term_ok t -> (forall o, In o (t_option t) -> o = "tcp-established") -> (p_proto p = "tcp" -> (p_option p "tcp-established" <-> p_option p "ack" \/ p_option p "rst")) ->
  on_net (p_src p) -> on_net (p_dst p) -> Forall2 kept_proto (t_protocol t) ps ->
  (if some (t_icmp_type t) then normalize_icmp_types (t_icmp_type t) (map pval_text ps) (AfNum (ver_number w)) else Ok None) = Ok types ->
  sn_rules t (str_in "tcp-established" (t_option t)) (match types with Some l => l | None => [] end)
    (address_of_version (t_source_address t) (Some w)) (address_of_version (t_destination_address t) (Some w)) ps = Ok rs ->
  (t_icmp_type t <> [] -> t_protocol t = [match w with V4 => "icmp" | V6 => "icmpv6" end]) /\
  ((exists a, In a rs /\ sn_rule_says (sn_json w act a (n a)) p o) <->
   o = act /\ own_side w (t_source_address t) (p_src p) /\ own_side w (t_destination_address t) (p_dst p) /\
   any_or (t_protocol t) (eq (p_proto p)) /\ ports_match (t_source_port t) (p_sport p) /\ ports_match (t_destination_port t) (p_dport p) /\
   (forall x, In x (t_option t) -> p_option p x) /\ any_or (t_icmp_type t) (eq (p_icmp_type p))).
Proof.
  intros K Opt Est On1 On2 Fp Et E. pose proof (sn_rules_known _ _ _ _ _ _ _ E) as Kn.
  destruct (kept_names _ _ Fp Kn) as [-> Kp]. rewrite term_text in Et.
  destruct (sn_icmp_meaning w t types p Et) as [Ti Tm]. split; [exact Ti|].
  assert (Tc : str_in "tcp-established" (t_option t) = true -> map PName (t_protocol t) = [PName "tcp"]).
  { intros X. apply str_in_spec in X. destruct (nt_option _ K) as [Y| ->]; [rewrite Y in X; destruct X|reflexivity]. }
  pose proof (sn_rules_made t _ _ _ _ _ (nt_ports _ K) (proj1 (nt_uniform _ K)) (proj2 (nt_uniform _ K)) Tc rs E) as M.
  pose proof (sn_side_meaning w _ _ (proj1 (nt_addresses _ K)) On1) as Ms. pose proof (sn_side_meaning w _ _ (proj2 (nt_addresses _ K)) On2) as Md.
  pose proof (sn_ports_meaning (t_source_port t) (p_sport p) (fun r I => nt_ports _ K r (in_or_app _ _ _ (or_introl I)))) as Mp.
  pose proof (sn_ports_meaning (t_destination_port t) (p_dport p) (fun r I => nt_ports _ K r (in_or_app _ _ _ (or_intror I)))) as Mq.
  pose proof (sn_proto_meaning (t_protocol t) p Kp (nt_all _ K)) as Mr.
  assert (Fl : forall q, In q (or_any (map PName (t_protocol t))) -> any_or (t_protocol t) (eq (p_proto p)) ->
    ((pnamed "tcp" q && str_in "tcp-established" (t_option t) = true -> p_proto p = "tcp" /\ (p_option p "ack" \/ p_option p "rst")) <-> forall x, In x (t_option t) -> p_option p x)).
  { intros q Iq Pm. destruct (nt_option _ K) as [X|X].
    - rewrite X. cbn [str_in memb existsb]. rewrite andb_false_r. split; [intros _ x []|intros _ Y; discriminate Y].
    - rewrite X in Iq, Pm. destruct Iq as [<-|[]]. cbn [pnamed andb].
      destruct Pm as [Y|(a & [<-|[]] & Pm)]; [discriminate Y|]. change (String.eqb "tcp" "tcp") with true. cbn [andb]. rewrite (str_in_spec "tcp-established" (t_option t)). split.
      + intros Y x I. pose proof (Opt x I). subst x. apply Est; [exact Pm|]. apply Y, I.
      + intros Y I. split; [exact Pm|]. apply Est; [exact Pm|]. exact (Y _ I). }
  split.
  - intros (a & Ia & S). apply rule_says_made in S. destruct S as (-> & X1 & X2 & X3 & X4 & X5 & X6 & X7). split; [reflexivity|].
    apply M in Ia. destruct Ia as (q & Iq & i & Ii & s & Is & d & Id & sp & Isp & dp & Idp & A1 & A2 & A3 & A4 & A5 & A6 & A7).
    rewrite A2 in X2. rewrite A3 in X3. rewrite A4 in X4. rewrite A5 in X5. rewrite A6 in X6. rewrite A7 in X7.
    assert (Pm : any_or (t_protocol t) (eq (p_proto p))) by (apply Mr; exists q, (sa_proto a); auto).
    split; [apply Ms; exists s; auto|]. split; [apply Md; exists d; auto|]. split; [exact Pm|]. split; [apply Mp; exists sp; auto|]. split; [apply Mq; exists dp; auto|].
    split; [apply (Fl q Iq Pm), X2|]. apply Tm. exists i. auto.
  - intros (-> & X1 & X2 & X3 & X4 & X5 & X6 & X7). apply Ms in X1. apply Md in X2. pose proof X3 as Pm. apply Mr in X3. apply Mp in X4. apply Mq in X5. apply Tm in X7.
    destruct X1 as (s & Is & X1), X2 as (d & Id & X2), X3 as (q & m & Iq & N & X3), X4 as (sp & Isp & X4), X5 as (dp & Idp & X5), X7 as (i & Ii & X7).
    exists (mkSn m (pnamed "tcp" q && str_in "tcp-established" (t_option t)) (option_map dec i) (option_map prefixlen_text s) (option_map prefixlen_text d) (port_said sp) (port_said dp)). split.
    + apply M. exists q. split; [exact Iq|]. exists i. split; [exact Ii|]. exists s. split; [exact Is|]. exists d. split; [exact Id|]. exists sp. split; [exact Isp|]. exists dp. split; [exact Idp|].
      unfold sn_made. cbn [sa_proto sa_flags sa_icmp sa_src sa_dst sa_sport sa_dport]. auto 10.
    + apply rule_says_made. cbn [sa_proto sa_flags sa_icmp sa_src sa_dst sa_sport sa_dport]. split; [reflexivity|]. split; [exact X3|].
      split; [apply (Fl q Iq Pm), X6|]. auto.
Qed.
