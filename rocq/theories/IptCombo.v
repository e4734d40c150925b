(** One combination of a term: the packets its lines select. *)
From Coq Require Import Lia ZifyBool ZifyNat.
From Verif Require Import SpecIptables BaseFacts PyStrFacts TextProofs CiscoProofs CiscoProofs2 CiscoTerm CiscoAcl WrapProofs IptText IPFacts PolicyProofs IptProofs IptLine IptPart.
Local Open Scope string_scope.
Local Open Scope list_scope.
Local Open Scope Z_scope.

Ltac and_iff := let H := fresh "H" in split; intros H; decompose [and] H; clear H; repeat match goal with |- _ /\ _ => split end; (assumption || exact I).
Definition proto_says (q : string) (p : packet) : Prop := q = "" \/ q = "all" \/ p_proto p = q.
Definition has_flags (k : combo) : bool := some (cb_flags k) || some (fst (cb_track k)).
Definition combo_flags_say (k : combo) (p : packet) : Prop :=
  has_flags k = true -> forall f, In f tcp_flags -> (meanings (cb_flags k ++ fst (cb_track k)) f /\ p_option p f <-> meanings (cb_flags k ++ snd (cb_track k)) f).
Definition combo_says (v : ver) (k : combo) (co : packet -> Prop) (p : packet) : Prop :=
  proto_says (cb_proto k) p /\ combo_flags_say k p /\ ports_match (cb_sport k) (p_sport p) /\ ports_match (cb_dport k) (p_dport p) /\
  icmp_says v (cb_type k) (cb_code k) p /\ net_says v (cb_src k) (snd (p_src p)) /\ net_says v (cb_dst k) (snd (p_dst p)) /\ co p /\
  (cb_in k = "" \/ p_src_if p = cb_in k) /\ (cb_out k = "" \/ p_dst_if p = cb_out k).
Record combo_ok (c : ipt_cfg) (t : term) (k : combo) (options : list string) (syn : bool) (target : string) : Prop := {
  ck_name : plain_arg (t_name t) /\ plain_arg (chain_of c (t_name t));
  ck_proto : cb_proto k = "" \/ cb_proto k = "all" \/ In (cb_proto k) (map fst proto_map);
  ck_special : In (cb_proto k) special_protocols -> ic_ver c = V6 /\ options = [] /\ syn = false;
  ck_ports : forall r, In r (cb_sport k ++ cb_dport k) -> port_ok r /\ In (cb_proto k) ["tcp"; "udp"; "udplite"; "sctp"];
  ck_icmp : match cb_type k with
            | None => cb_code k = None
            | Some n => 0 <= n /\ (forall m, cb_code k = Some m -> 0 < m) /\ (cb_proto k = "icmp" /\ ic_ver c = V4 \/ cb_proto k = "icmpv6" /\ ic_ver c = V6)
            end;
  ck_src : forall n, cb_src k = Some n -> valid n /\ nver n = ic_ver c;
  ck_dst : forall n, cb_dst k = Some n -> valid n /\ nver n = ic_ver c;
  ck_flags : has_flags k = true -> cb_proto k = "tcp" /\ syn = false /\ cb_flags k ++ snd (cb_track k) <> [] /\
    forall g, In g ((cb_flags k ++ fst (cb_track k)) ++ (cb_flags k ++ snd (cb_track k))) -> In g flag_words;
  ck_syn : syn = true -> cb_proto k = "tcp";
  ck_in : cb_in k = "" \/ (plain_arg (cb_in k) /\ has_char "+" (cb_in k) = false);
  ck_out : cb_out k = "" \/ (plain_arg (cb_out k) /\ has_char "+" (cb_out k) = false);
  ck_action : chain_action (ic_ver c) (cb_action k) target /\ target <> "LOG" }.

(** The protocol at the head of a line. *)
Definition head_text (q : string) : string := if String.eqb q "hopopt" || String.eqb q "fragment" then "" else proto_text q.
Lemma head_piece T v q : q = "" \/ q = "all" \/ In q (map fst proto_map) -> q <> "icmpv6" ->
  exists st, piece T v rd_start (head_text q) (fun p => q = "hopopt" \/ q = "fragment" \/ proto_says q p) st /\ rd_flags st = false /\ rd_modules st = [] /\
    (q <> "hopopt" -> q <> "fragment" -> q <> "" -> rd_proto st = Some q).
Proof.
  intros H N. unfold head_text. destruct (String.eqb q "hopopt") eqn:E1; [|destruct (String.eqb q "fragment") eqn:E2].
  - apply String.eqb_eq in E1. exists rd_start. split; [|split; [reflexivity|split; [reflexivity|congruence]]]. eapply piece_iff; [|apply piece_nil]. cbn. tauto.
  - apply String.eqb_eq in E2. exists rd_start. split; [|split; [reflexivity|split; [reflexivity|congruence]]]. eapply piece_iff; [|apply piece_nil]. cbn. tauto.
  - cbn [orb]. destruct (String.eqb q "all") eqn:Ea; [apply String.eqb_eq in Ea|apply String.eqb_neq in Ea]; destruct H as [->|[H|H]]; try discriminate Ea; try subst q; try congruence.
    + exists (set_proto "all" rd_start). split; [|split; [reflexivity|split; [reflexivity|reflexivity]]].
      eapply piece_iff; [|apply all_piece; reflexivity]. unfold proto_says. tauto.
    + exists (set_proto "all" rd_start). split; [|split; [reflexivity|split; [reflexivity|reflexivity]]].
      eapply piece_iff; [|apply all_piece; reflexivity]. unfold proto_says. tauto.
    + exists rd_start. split; [|split; [reflexivity|split; [reflexivity|congruence]]]. eapply piece_iff; [|apply piece_nil]. unfold proto_says. tauto.
    + apply String.eqb_neq in E1, E2.
      exists (set_proto q rd_start). split; [|split; [reflexivity|split; [reflexivity|reflexivity]]].
      eapply piece_iff; [|apply proto_piece; [reflexivity|exact H|exact Ea|exact N]].
      intros p _. unfold proto_says. assert (q <> "") by (intros ->; apply proto_plain in H; discriminate H). intuition congruence.
Qed.
Lemma special_not q : In q ["tcp"; "udp"; "udplite"; "sctp"] -> q <> "hopopt" /\ q <> "fragment" /\ q <> "icmpv6" /\ q <> "".
Proof. intros I. cbn in I. repeat destruct I as [<-|I]; try (repeat split; discriminate). destruct I. Qed.

(** The line with everything in it. *)
Lemma pieces_one T v st s c st' : piece T v st s c st' -> pieces T v st [s] (fun p => c p /\ True) st'.
Proof. intros P. eapply pieces_cons; [exact P|apply pieces_nil]. Qed.
Lemma interface_text (T : packet -> Prop) v st flag s (name : packet -> string) : (flag = "-i" /\ name = p_src_if \/ flag = "-o" /\ name = p_dst_if) ->
  s = "" \/ (plain_arg s /\ has_char "+" s = false) -> piece T v st (if nonempty s then append flag (append " " s) else "") (fun p => s = "" \/ name p = s) st.
Proof.
  intros F [->|(P & N)].
  - eapply piece_iff; [|apply piece_nil]. cbn. tauto.
  - assert (Ne : s <> "") by apply P. pose proof (interface_piece T v st flag (Some s) name F) as X. cbn [given_text opt_eq] in X.
    eapply piece_iff; [|apply X]. { intros p _. cbn beta. tauto. } { intros x E. injection E as <-. auto. }
Qed.
Definition tail_values (c : ipt_cfg) (k : combo) (icmp : string) (options : list string) : list string :=
  [icmp; address_statement (ic_ver c) "-s" (cb_src k); address_statement (ic_ver c) "-d" (cb_dst k); join " " options;
   if nonempty (cb_in k) then append "-i " (cb_in k) else ""; if nonempty (cb_out k) then append "-o " (cb_out k) else ""].
Lemma traffic_src c p : ipt_traffic c p -> 0 <= snd (p_src p) < 2 ^ width (ic_ver c).
Proof. intros (_ & A & _). exact A. Qed.
Lemma traffic_dst c p : ipt_traffic c p -> 0 <= snd (p_dst p) < 2 ^ width (ic_ver c).
Proof. intros (_ & _ & _ & A & _). exact A. Qed.
Lemma tail_pieces c k icmp ci options co syn st : 
  (forall n, cb_src k = Some n -> valid n /\ nver n = ic_ver c) -> (forall n, cb_dst k = Some n -> valid n /\ nver n = ic_ver c) ->
  cb_in k = "" \/ (plain_arg (cb_in k) /\ has_char "+" (cb_in k) = false) -> cb_out k = "" \/ (plain_arg (cb_out k) /\ has_char "+" (cb_out k) = false) ->
  piece (ipt_traffic c) (ic_ver c) st icmp ci st -> opts_say (ipt_traffic c) (ic_ver c) options co syn ->
  (syn = true -> proto_is "tcp" st = true /\ rd_flags st = false) ->
  exists e st', pieces (ipt_traffic c) (ic_ver c) st (tail_values c k icmp options) e st' /\
    forall p, ipt_traffic c p -> e p <-> ci p /\ net_says (ic_ver c) (cb_src k) (snd (p_src p)) /\ net_says (ic_ver c) (cb_dst k) (snd (p_dst p)) /\ co p /\
      (cb_in k = "" \/ p_src_if p = cb_in k) /\ (cb_out k = "" \/ p_dst_if p = cb_out k).
Proof.
  intros S D I O Pi Po Sy. destruct (Po st Sy) as (e & st' & P1 & _ & P2).
  eexists _, st'. split.
  - eapply pieces_cons; [exact Pi|]. eapply pieces_cons; [apply (address_piece (ipt_traffic c) (ic_ver c) st "-s" (cb_src k) (fun p => snd (p_src p))); [left; auto|apply traffic_src|exact S]|].
    eapply pieces_cons; [apply (address_piece (ipt_traffic c) (ic_ver c) st "-d" (cb_dst k) (fun p => snd (p_dst p))); [right; auto|apply traffic_dst|exact D]|].
    eapply pieces_cons; [apply pieces_join; exact P1|].
    eapply pieces_cons; [apply (interface_text (ipt_traffic c) (ic_ver c) st' "-i" (cb_in k) p_src_if); [left; auto|exact I]|].
    eapply pieces_cons; [apply (interface_text (ipt_traffic c) (ic_ver c) st' "-o" (cb_out k) p_dst_if); [right; auto|exact O]|].
    apply pieces_nil.
  - intros p Tp. cbn beta. rewrite (P2 p Tp). tauto.
Qed.
Definition flags_text (k : combo) : string :=
  if has_flags k then append "--tcp-flags " (append (join "," (sorted_set (cb_flags k ++ fst (cb_track k)))) (append " " (join "," (sorted_set (cb_flags k ++ snd (cb_track k))))))
  else "".
Lemma flags_text_piece T v st k : (has_flags k = true -> proto_is "tcp" st = true /\ rd_flags st = false /\ cb_flags k ++ snd (cb_track k) <> [] /\
    forall g, In g ((cb_flags k ++ fst (cb_track k)) ++ (cb_flags k ++ snd (cb_track k))) -> In g flag_words) ->
  exists st', piece T v st (flags_text k) (combo_flags_say k) st' /\ rd_proto st' = rd_proto st /\ rd_modules st' = rd_modules st /\ (has_flags k = false -> st' = st).
Proof.
  intros H. unfold flags_text, combo_flags_say. destruct (has_flags k) eqn:E.
  - destruct (H eq_refl) as (P & F & N & W). eexists. split; [|split; [|split; [|discriminate]]].
    + eapply piece_iff; [|apply flags_piece; [exact P|exact F| |exact N|exact W]].
      * intros p _. cbn beta. split; [auto|intros X; apply X; reflexivity].
      * intros X. apply app_eq_nil in X. destruct X as (X1 & X2). unfold has_flags in E. rewrite X1, X2 in E. discriminate E.
    + reflexivity.
    + reflexivity.
  - exists st. split; [|auto]. eapply piece_iff; [|apply piece_nil]. intros p _. split; [discriminate|auto].
Qed.

(** All combinations but those for ICMPv6. *)
Lemma line_part c t k options co syn target s d : combo_ok c t k options syn target -> cb_proto k <> "icmpv6" ->
  (forall opts, opts_say (ipt_traffic c) (ic_ver c) opts co syn -> (forall st, with_ports st = true \/ (s = None /\ d = None) -> side_ok st s /\ side_ok st d) ->
     (with_ports (set_proto (cb_proto k) rd_start) = true \/ (s = None /\ d = None)) ->
   part (ipt_traffic c) (ic_ver c) (chain_of c (t_name t)) target
     (one_line c t k (line_values c k (flags_text k) (drop_all c k (head_text (cb_proto k))) (icmp_statement (cb_proto k) (cb_type k) (cb_code k)) opts (side_text "s" s) (side_text "d" d)))
     (fun p => (cb_proto k = "hopopt" \/ cb_proto k = "fragment" \/ proto_says (cb_proto k) p) /\ combo_flags_say k p /\ side_says s (p_sport p) /\ side_says d (p_dport p) /\
        icmp_says (ic_ver c) (cb_type k) (cb_code k) p /\ net_says (ic_ver c) (cb_src k) (snd (p_src p)) /\ net_says (ic_ver c) (cb_dst k) (snd (p_dst p)) /\ co p /\
        (cb_in k = "" \/ p_src_if p = cb_in k) /\ (cb_out k = "" \/ p_dst_if p = cb_out k))).
Proof.
  intros K N6 opts Ho Hs Hw. set (T := ipt_traffic c). set (v := ic_ver c). set (q := cb_proto k) in *.
  assert (Hd : exists st0, piece T v rd_start (drop_all c k (head_text q)) (fun p => q = "hopopt" \/ q = "fragment" \/ proto_says q p) st0 /\ rd_flags st0 = false /\ rd_modules st0 = [] /\
    (q <> "hopopt" -> q <> "fragment" -> q <> "" -> q <> "all" -> rd_proto st0 = Some q)).
  { unfold drop_all. fold q. destruct (ver_eqb (ic_ver c) V6 && String.eqb q "all" && substring_of "REJECT" (cb_action k)) eqn:E.
    - apply andb_true_iff in E. destruct E as (E & _). apply andb_true_iff in E. destruct E as (_ & E). apply String.eqb_eq in E.
      exists rd_start. split; [|split; [reflexivity|split; [reflexivity|congruence]]]. eapply piece_iff; [|apply piece_nil]. intros p _. unfold proto_says. tauto.
    - destruct (head_piece T v q (ck_proto _ _ _ _ _ _ K) N6) as (st0 & A & B & C & D). exists st0. split; [exact A|]. split; [exact B|]. split; [exact C|]. intros. apply D; assumption. }
  destruct Hd as (st0 & P0 & F0 & M0 & Q0).
  destruct (flags_text_piece T v st0 k) as (st1 & P1 & Q1 & M1 & S1).
  { intros E. destruct (ck_flags _ _ _ _ _ _ K E) as (E1 & _ & E2 & E3). fold q in E1. split; [|auto].
    unfold proto_is. rewrite Q0 by (rewrite E1; discriminate). rewrite E1. reflexivity. }
  assert (W1 : side_ok st1 s /\ side_ok st1 d).
  { apply Hs. destruct Hw as [Hw|Hw]; [left|right; exact Hw]. unfold with_ports in *. rewrite Q1. cbn [set_proto rd_proto] in Hw.
    assert (X : In q ["tcp"; "udp"; "udplite"; "sctp"]) by (apply str_in_iff; exact Hw). destruct (special_not q X) as (X1 & X2 & X3 & X4).
    rewrite Q0; [exact Hw|exact X1|exact X2|exact X4|]. intros ->. cbn in X. intuition discriminate. }
  destruct W1 as (Ws & Wd).
  destruct (ports_pieces T v st1 s d) as (cp & st2 & P2 & L2 & E2); [unfold has_module; rewrite M1, M0; reflexivity|exact Ws|exact Wd|].
  assert (Pi : piece T v st2 (icmp_statement q (cb_type k) (cb_code k)) (icmp_says v (cb_type k) (cb_code k)) st2).
  { pose proof (ck_icmp _ _ _ _ _ _ K) as Ki. destruct (cb_type k) as [n|].
    - destruct Ki as (K1 & K2 & [(K3 & K4)|(K3 & _)]); [|destruct (N6 K3)]. fold q in K3. rewrite K3. fold v in K4. rewrite K4. rewrite <- K4 at 1. apply icmp4_piece; [|exact K1|exact K2].
      unfold proto_is. destruct L2 as (L2 & _). rewrite L2, Q1, Q0 by (rewrite K3; discriminate). rewrite K3. reflexivity.
    - rewrite Ki. eapply piece_iff; [|apply piece_nil]. intros p _. unfold icmp_says, type_says, code_says. tauto. }
  destruct (tail_pieces c k _ _ opts co syn st2 (ck_src _ _ _ _ _ _ K) (ck_dst _ _ _ _ _ _ K) (ck_in _ _ _ _ _ _ K) (ck_out _ _ _ _ _ _ K) Pi Ho) as (e & st3 & P3 & E3).
  { intros Sy. pose proof (ck_syn _ _ _ _ _ _ K Sy) as Kt. fold q in Kt. destruct (has_flags k) eqn:Ef.
    - destruct (ck_flags _ _ _ _ _ _ K Ef) as (_ & X & _). congruence.
    - specialize (S1 eq_refl). subst st1. destruct L2 as (L2 & L3). split; [|rewrite L3; exact F0]. unfold proto_is. rewrite L2, Q0 by (rewrite Kt; discriminate). rewrite Kt. reflexivity. }
  assert (P23 := pieces_app _ _ _ _ _ _ _ _ _ P2 P3). destruct P23 as (g & P23 & G).
  assert (All : pieces T v rd_start (line_values c k (flags_text k) (drop_all c k (head_text q)) (icmp_statement q (cb_type k) (cb_code k)) opts (side_text "s" s) (side_text "d" d))
    (fun p => (q = "hopopt" \/ q = "fragment" \/ proto_says q p) /\ combo_flags_say k p /\ g p) st3).
  { unfold line_values. fold (tail_values c k (icmp_statement q (cb_type k) (cb_code k)) opts). eapply pieces_cons; [exact P0|]. eapply pieces_cons; [exact P1|exact P23]. }
  destruct (ck_name _ _ _ _ _ _ K) as (Kn & Kc). destruct (ck_action _ _ _ _ _ _ K) as (Ka & Kl).
  eapply part_iff; [|apply (rule_part T v (chain_of c (t_name t)) _ _ _ (cb_action k) target (cb_log k) (t_name t) All Kc Ka Kn Kl)].
  intros p Tp. cbn beta. rewrite G, E2, (E3 p Tp). and_iff.
Qed.

(** ** A whole combination *)

Definition with_tracking (c : ipt_cfg) (k : combo) (opts : list string) : list string :=
  if (ic_state c && (negb (String.eqb (cb_proto k) "icmpv6") || match cb_type k with Some n => (n =? 128) || (n =? 139) | None => false end))
     && negb (existsb (substring_of "state") opts) && substring_of "ACCEPT" (cb_action k) then opts ++ [state_new] else opts.
Definition special_options (q : string) : list string :=
  (if String.eqb q "hopopt" then ["-m u32 --u32 " ++ String dquote "0x3&0xff=0x0" ++ String dquote ""]%string else []) ++
  (if String.eqb q "fragment" then ["-m u32 --u32 " ++ String dquote "0x3&0xff=0x2c" ++ String dquote ""]%string else []).
Lemma format_part_eq c t options k : format_part c t options k =
  let opts := with_tracking c k (options ++ special_options (cb_proto k)) in
  let (ls, st) := sport_loop c t k (flags_text k) (head_text (cb_proto k), icmp_statement (cb_proto k) (cb_type k) (cb_code k), opts)
    (if some (cb_sport k) then port_statements "s" (cb_sport k) else [""]) (if some (cb_dport k) then port_statements "d" (cb_dport k) else [""]) in
  (ls, if some options then snd st else options).
Proof. reflexivity. Qed.
Lemma tracking_say c k opts co syn : opts_say (ipt_traffic c) (ic_ver c) opts co syn -> opts_say (ipt_traffic c) (ic_ver c) (with_tracking c k opts) co syn.
Proof.
  intros H. unfold with_tracking. destruct (_ && _); [|exact H]. replace syn with (syn || false) by apply orb_false_r.
  eapply opts_iff; [|apply opts_app; [exact H|apply opts_free, free_new|apply andb_false_r]].
  - intros p _. cbn beta. tauto.
  - intros p Tp. unfold ipt_traffic in Tp. tauto.
Qed.
Lemma special_say T q : opts_say T V6 (special_options q) (fun p => (q = "hopopt" -> p_proto p = "hopopt") /\ (q = "fragment" -> p_proto p = "fragment")) false.
Proof.
  unfold special_options. apply (opts_app T V6 _ (fun p => q = "hopopt" -> p_proto p = "hopopt") false _ _ false); [| |reflexivity].
  - destruct (String.eqb q "hopopt") eqn:E; [apply String.eqb_eq in E|apply String.eqb_neq in E].
    + eapply opts_iff; [|apply opts_free, free_hop]. cbn beta. tauto.
    + eapply opts_iff; [|apply opts_nil]. cbn beta. tauto.
  - destruct (String.eqb q "fragment") eqn:E; [apply String.eqb_eq in E|apply String.eqb_neq in E].
    + eapply opts_iff; [|apply opts_free, free_frag]. cbn beta. tauto.
    + eapply opts_iff; [|apply opts_nil]. cbn beta. tauto.
Qed.
Lemma special_nil q : ~ In q special_protocols -> special_options q = [].
Proof.
  intros H. unfold special_options. destruct (String.eqb q "hopopt") eqn:E1; [apply String.eqb_eq in E1; subst q; exfalso; apply H; cbn; auto|].
  destruct (String.eqb q "fragment") eqn:E2; [apply String.eqb_eq in E2; subst q; exfalso; apply H; cbn; auto|]. reflexivity.
Qed.
Lemma in_special_dec q : In q special_protocols \/ ~ In q special_protocols.
Proof. destruct (str_in q special_protocols) eqn:E; [left; apply str_in_iff, E|right; apply str_in_false, E]. Qed.
Lemma all_opts_say c t k options co syn target : combo_ok c t k options syn target -> opts_say (ipt_traffic c) (ic_ver c) options co syn ->
  opts_say (ipt_traffic c) (ic_ver c) (with_tracking c k (options ++ special_options (cb_proto k)))
    (fun p => co p /\ (cb_proto k = "hopopt" -> p_proto p = "hopopt") /\ (cb_proto k = "fragment" -> p_proto p = "fragment")) syn.
Proof.
  intros K H. apply tracking_say. destruct (in_special_dec (cb_proto k)) as [S|S].
  - destruct (ck_special _ _ _ _ _ _ K S) as (V & _ & Sy). subst syn. rewrite V in *. change false with (false || false). apply opts_app; [exact H| |reflexivity]. apply special_say.
  - rewrite special_nil by exact S. rewrite app_nil_r. eapply opts_iff; [|exact H]. intros p _. cbn beta. split; [|tauto]. intros X. split; [exact X|].
    split; intros E; exfalso; apply S; rewrite E; cbn; auto.
Qed.
Lemma ports_protocol c t k options syn target : combo_ok c t k options syn target -> cb_sport k ++ cb_dport k <> [] -> with_ports (set_proto (cb_proto k) rd_start) = true.
Proof.
  intros K N. destruct (cb_sport k ++ cb_dport k) as [|r l] eqn:E; [congruence|].
  destruct (ck_ports _ _ _ _ _ _ K r) as (_ & I); [rewrite E; left; reflexivity|]. unfold with_ports. cbn [set_proto rd_proto]. apply str_in_iff, I.
Qed.
Lemma part_of_combo c t k options co syn target : combo_ok c t k options syn target -> opts_say (ipt_traffic c) (ic_ver c) options co syn ->
  part (ipt_traffic c) (ic_ver c) (chain_of c (t_name t)) target (fst (format_part c t options k)) (combo_says (ic_ver c) k co) /\
  opts_say (ipt_traffic c) (ic_ver c) (snd (format_part c t options k)) co syn /\ (options = [] -> snd (format_part c t options k) = []).
Proof.
  intros K Ho. pose proof (all_opts_say _ _ _ _ _ _ _ K Ho) as Ha. rewrite format_part_eq. cbv zeta.
  set (opts := with_tracking c k (options ++ special_options (cb_proto k))) in *.
  destruct (String.eqb (cb_proto k) "icmpv6") eqn:E6.
  - (* ICMPv6 has no ports and, here, no options *)
    pose proof E6 as E6'. apply String.eqb_eq in E6'.
    assert (Np : cb_sport k = [] /\ cb_dport k = []).
    { assert (X : cb_sport k ++ cb_dport k = []).
      { destruct (cb_sport k ++ cb_dport k) as [|r l] eqn:E; [reflexivity|]. destruct (ck_ports _ _ _ _ _ _ K r) as (_ & I); [rewrite E; left; reflexivity|].
        rewrite E6' in I. cbn in I. intuition discriminate. }
      apply app_eq_nil in X. exact X. }
    destruct Np as (Ns & Nd). rewrite Ns, Nd. cbn [some].
    destruct (ck_special _ _ _ _ _ _ K) as (V & Eo & Sy); [rewrite E6'; cbn; auto|].
    rewrite Eo in *. cbn [some]. cbn [sport_loop dport_loop].
    destruct (format_line c t k (flags_text k) ("", head_text (cb_proto k), icmp_statement (cb_proto k) (cb_type k) (cb_code k), opts) "") as (ls, (((s1, p1), i1), o1)) eqn:El.
    cbn [fst snd]. rewrite !app_nil_r. split; [|split; [exact Ho|reflexivity]].
    pose proof (format_line_six c t k (flags_text k) (head_text (cb_proto k)) (icmp_statement (cb_proto k) (cb_type k) (cb_code k)) opts "" E6) as L. rewrite El in L. cbn [fst] in L. subst ls.
    set (T := ipt_traffic c). set (v := ic_ver c).
    assert (Fl : has_flags k = false).
    { destruct (has_flags k) eqn:E; [|reflexivity]. destruct (ck_flags _ _ _ _ _ _ K E) as (X & _). rewrite E6' in X. discriminate X. }
    assert (Ft : flags_text k = "") by (unfold flags_text; rewrite Fl; reflexivity). rewrite Ft.
    destruct (Ha rd_start) as (e & st1 & P1 & L1 & E1); [intros X; congruence|]. specialize (L1 Sy).
    assert (Hp : piece T v st1 (head_text (cb_proto k)) (fun p => p_proto p = "icmpv6") (set_proto "ipv6-icmp" st1)).
    { rewrite E6'. apply icmp6_piece. destruct L1 as (L1 & _). rewrite L1. reflexivity. }
    assert (Hi : exists st3, piece T v (set_proto "ipv6-icmp" st1) (icmp_statement (cb_proto k) (cb_type k) (cb_code k)) (icmp_says v (cb_type k) (cb_code k)) st3).
    { pose proof (ck_icmp _ _ _ _ _ _ K) as Ki. destruct (cb_type k) as [n|].
      - destruct Ki as (K1 & K2 & _). eexists. rewrite E6'. replace v with V6 by (symmetry; exact V). apply icmp6_type_piece; [reflexivity|exact K1|exact K2].
      - rewrite Ki. eexists. eapply piece_iff; [|apply piece_nil]. intros p _. unfold icmp_says, type_says, code_says. tauto. }
    destruct Hi as (st3 & Hi).
    destruct (pieces_app _ _ _ _ _ _ _ _ _ P1 (pieces_two _ _ _ _ _ _ _ _ _ Hp Hi)) as (g & G1 & G2).
    assert (All : pieces T v rd_start (line_values c k "" "" "" (opts ++ [head_text (cb_proto k); icmp_statement (cb_proto k) (cb_type k) (cb_code k)]) "" "")
      (fun p => True /\ True /\ True /\ True /\ True /\ net_says v (cb_src k) (snd (p_src p)) /\ net_says v (cb_dst k) (snd (p_dst p)) /\ g p /\
        (cb_in k = "" \/ p_src_if p = cb_in k) /\ (cb_out k = "" \/ p_dst_if p = cb_out k) /\ True) st3).
    { change (in_order "" "") with ["";""]. unfold line_values. change (in_order "" "") with ["";""]. cbn [app].
      do 5 (eapply pieces_cons; [apply piece_nil|]).
      eapply pieces_cons; [apply (address_piece T v rd_start "-s" (cb_src k) (fun p => snd (p_src p))); [left; auto|apply traffic_src|exact (ck_src _ _ _ _ _ _ K)]|].
      eapply pieces_cons; [apply (address_piece T v rd_start "-d" (cb_dst k) (fun p => snd (p_dst p))); [right; auto|apply traffic_dst|exact (ck_dst _ _ _ _ _ _ K)]|].
      eapply pieces_cons; [apply pieces_join; exact G1|].
      eapply pieces_cons; [apply (interface_text T v _ "-i" (cb_in k) p_src_if); [left; auto|exact (ck_in _ _ _ _ _ _ K)]|].
      eapply pieces_cons; [apply (interface_text T v _ "-o" (cb_out k) p_dst_if); [right; auto|exact (ck_out _ _ _ _ _ _ K)]|].
      apply pieces_nil. }
    destruct (ck_name _ _ _ _ _ _ K) as (Kn & Kc). destruct (ck_action _ _ _ _ _ _ K) as (Ka & Kl).
    eapply part_iff; [|apply (rule_part T v (chain_of c (t_name t)) _ _ _ (cb_action k) target (cb_log k) (t_name t) All Kc Ka Kn Kl)].
    intros p Tp. cbn beta. rewrite G2, (E1 p Tp). unfold combo_says, proto_says, combo_flags_say. rewrite Ns, Nd, Fl, E6'.
    assert (M : forall n, ports_match [] n) by (intros n; left; reflexivity). pose proof (M (p_sport p)). pose proof (M (p_dport p)).
    split; intros X; decompose [and] X; clear X; repeat match goal with |- _ /\ _ => split end;
      first [assumption|exact I|discriminate|tauto|idtac].
    match goal with H : _ \/ _ \/ p_proto p = _ |- _ => destruct H as [H|[H|H]]; [discriminate H|discriminate H|exact H] end.
  - (* the others *)
    assert (N6 : cb_proto k <> "icmpv6") by (apply String.eqb_neq; exact E6).
    destruct (sides_exist "s" (cb_sport k)) as (ss & Es & Ss). destruct (sides_exist "d" (cb_dport k)) as (ds & Ed & Sd). rewrite Es, Ed.
    assert (Md : Forall (fun d => multi d = true) (removelast (map (side_text "d") ds))) by (eapply sides_multi; [right; split; reflexivity|exact Sd]).
    destruct (sport_loop_plain c t k (flags_text k) (icmp_statement (cb_proto k) (cb_type k) (cb_code k)) opts (map (side_text "d") ds) E6 Md (map (side_text "s") ss) (head_text (cb_proto k))) as (p' & L).
    rewrite L. cbn [fst snd]. split; [|split].
    + rewrite flat_map_concat_map, map_map, <- flat_map_concat_map.
      eapply part_iff; [|apply part_flat_map with (c := fun s p => exists d, In d ds /\
        (cb_proto k = "hopopt" \/ cb_proto k = "fragment" \/ proto_says (cb_proto k) p) /\ combo_flags_say k p /\ side_says s (p_sport p) /\ side_says d (p_dport p) /\
        icmp_says (ic_ver c) (cb_type k) (cb_code k) p /\ net_says (ic_ver c) (cb_src k) (snd (p_src p)) /\ net_says (ic_ver c) (cb_dst k) (snd (p_dst p)) /\
        (co p /\ (cb_proto k = "hopopt" -> p_proto p = "hopopt") /\ (cb_proto k = "fragment" -> p_proto p = "fragment")) /\
        (cb_in k = "" \/ p_src_if p = cb_in k) /\ (cb_out k = "" \/ p_dst_if p = cb_out k))].
      * intros p Tp. unfold combo_says. rewrite <- (sides_say _ _ (p_sport p) Ss), <- (sides_say _ _ (p_dport p) Sd). split.
        -- intros (s & Is & d & Id & H). decompose [and] H. clear H. assert (Pq : proto_says (cb_proto k) p).
           { assert (Hq : cb_proto k = "hopopt" \/ cb_proto k = "fragment" \/ proto_says (cb_proto k) p) by assumption.
             destruct Hq as [Hq|[Hq|Hq]]; [| |exact Hq]; unfold proto_says; right; right; rewrite Hq; auto. }
           repeat match goal with |- _ /\ _ => split end; try assumption; [exists s|exists d]; auto.
        -- intros H. decompose [and] H. clear H.
           assert (Xs : exists o, In o ss /\ side_says o (p_sport p)) by assumption. assert (Xd : exists o, In o ds /\ side_says o (p_dport p)) by assumption.
           destruct Xs as (s & Is & Hs). destruct Xd as (d & Id & Hd).
           exists s. split; [exact Is|]. exists d. split; [exact Id|]. repeat match goal with |- _ /\ _ => split end; try assumption; auto.
           ++ intros E. match goal with H : proto_says _ _ |- _ => destruct H as [H|[H|H]] end; congruence.
           ++ intros E. match goal with H : proto_says _ _ |- _ => destruct H as [H|[H|H]] end; congruence.
      * intros s Is. rewrite flat_map_concat_map, map_map, <- flat_map_concat_map. apply part_flat_map. intros d Id.
        assert (Pk : forall st, with_ports st = true \/ (s = None /\ d = None) -> side_ok st s /\ side_ok st d).
        { intros st [W|(-> & ->)]; [|split; intros ch X; discriminate X]. split.
          - eapply sides_ok; [exact Ss| |exact Is]. intros _. split; [exact W|]. intros r Ir. apply (ck_ports _ _ _ _ _ _ K r). apply in_or_app. auto.
          - eapply sides_ok; [exact Sd| |exact Id]. intros _. split; [exact W|]. intros r Ir. apply (ck_ports _ _ _ _ _ _ K r). apply in_or_app. auto. }
        apply (line_part c t k options _ syn target s d K N6 opts Ha Pk).
        destruct Ss as [(X1 & ->)|(X1 & _)]; [|left; eapply ports_protocol; [exact K|intros Y; apply X1; apply app_eq_nil in Y; apply Y]].
        destruct Sd as [(X2 & ->)|(X2 & _)]; [|left; eapply ports_protocol; [exact K|intros Y; apply X2; apply app_eq_nil in Y; apply Y]].
        destruct Is as [<-|[]]. destruct Id as [<-|[]]. right. auto.
    + destruct options as [|o options]; [exact Ho|]. cbn [some]. unfold opts. apply tracking_say. rewrite special_nil; [rewrite app_nil_r; exact Ho|].
      intros S. destruct (ck_special _ _ _ _ _ _ K S) as (_ & X & _). discriminate X.
    + intros ->. reflexivity.
Qed.
Lemma combo_ok_mono c t k options o syn target : (options = [] -> o = []) -> combo_ok c t k options syn target -> combo_ok c t k o syn target.
Proof. intros E Kx. destruct Kx. constructor; try assumption. intros S. destruct (ck_special0 S) as (A & B & C). auto. Qed.
Lemma part_of_combos c t co syn target : forall ks options, (forall k, In k ks -> combo_ok c t k options syn target) -> opts_say (ipt_traffic c) (ic_ver c) options co syn ->
  part (ipt_traffic c) (ic_ver c) (chain_of c (t_name t)) target (format_parts c t options ks) (fun p => exists k, In k ks /\ combo_says (ic_ver c) k co p).
Proof.
  induction ks as [|k ks IH]; intros options Hk Ho.
  - eapply part_iff; [|apply part_nil]. intros p _. split; [intros []|intros (k & [] & _)].
  - cbn [format_parts]. destruct (part_of_combo c t k options co syn target (Hk k (or_introl eq_refl)) Ho) as (P1 & P2 & P3).
    destruct (format_part c t options k) as (ls, o') eqn:E. cbn [fst snd] in *.
    eapply part_iff; [|apply part_app; [exact P1|apply IH; [|exact P2]]].
    + intros p _. cbn beta. split.
      * intros [X|(x & I & X)]; [exists k; split; [left; reflexivity|exact X]|exists x; split; [right; exact I|exact X]].
      * intros (x & [<-|I] & X); [left; exact X|right; exists x; auto].
    + intros x I. eapply combo_ok_mono; [exact P3|]. apply Hk. right. exact I.
Qed.
