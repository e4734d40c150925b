(** The lines written for one combination of a term. *)
From Coq Require Import Lia ZifyBool ZifyNat.
From Verif Require Import SpecIptables BaseFacts PyStrFacts TextProofs CiscoProofs CiscoProofs2 CiscoTerm CiscoAcl WrapProofs IptText IPFacts PolicyProofs IptProofs IptLine.
Local Open Scope string_scope.
Local Open Scope list_scope.
Local Open Scope Z_scope.

(** ** The loops over the ports *)

Definition multi (s : string) : bool := substring_of "multiport" s.
Definition drop_all (c : ipt_cfg) (k : combo) (proto : string) : string :=
  if ver_eqb (ic_ver c) V6 && String.eqb (cb_proto k) "all" && substring_of "REJECT" (cb_action k) then "" else proto.
Definition in_order (s d : string) : list string := if multi s && negb (multi d) then [d; s] else [s; d].
Definition line_values (c : ipt_cfg) (k : combo) (flags proto icmp : string) (options : list string) (s d : string) : list string :=
  proto :: flags :: in_order s d ++ [icmp; address_statement (ic_ver c) "-s" (cb_src k);
                        address_statement (ic_ver c) "-d" (cb_dst k); join " " options;
                        if nonempty (cb_in k) then append "-i " (cb_in k) else ""; if nonempty (cb_out k) then append "-o " (cb_out k) else ""].
Definition one_line (c : ipt_cfg) (t : term) (k : combo) (vals : list string) : list string :=
  let rval := append "-A " (chain_of c (t_name t)) :: filter nonempty vals in
  (if cb_log k then [join " " (rval ++ [append "-j LOG --log-prefix " (t_name t)])] else []) ++ [join " " (rval ++ [cb_action k])].
Lemma drop_twice c k proto : drop_all c k (drop_all c k proto) = drop_all c k proto.
Proof. unfold drop_all. destruct (_ && _); reflexivity. Qed.
Lemma format_line_plain c t k flags s proto icmp options d : String.eqb (cb_proto k) "icmpv6" = false ->
  format_line c t k flags (s, proto, icmp, options) d =
  (one_line c t k (line_values c k flags (drop_all c k proto) icmp options s d), (if multi s && negb (multi d) then d else s, drop_all c k proto, icmp, options)).
Proof.
  intros E. unfold format_line, one_line, line_values, in_order. fold (multi s) (multi d). rewrite E.
  fold (drop_all c k proto). destruct (multi s && negb (multi d)); reflexivity.
Qed.
Lemma format_line_six c t k flags proto icmp options d : String.eqb (cb_proto k) "icmpv6" = true ->
  fst (format_line c t k flags ("", proto, icmp, options) d) = one_line c t k (line_values c k flags "" "" (options ++ [proto; icmp]) "" d).
Proof.
  intros E. unfold format_line, one_line, line_values, in_order. change (multi "") with false. change (substring_of "multiport" "") with false. cbn [andb].
  rewrite E. apply String.eqb_eq in E. rewrite E. change (String.eqb "icmpv6" "all") with false. rewrite andb_false_r. cbn [andb fst]. reflexivity.
Qed.
Lemma dport_loop_plain c t k flags icmp options : String.eqb (cb_proto k) "icmpv6" = false -> forall ds s proto,
  Forall (fun d => multi d = true) (removelast ds) ->
  exists s' proto', dport_loop c t k flags (s, proto, icmp, options) ds =
    (flat_map (fun d => one_line c t k (line_values c k flags (drop_all c k proto) icmp options s d)) ds, (s', proto', icmp, options)) /\
    drop_all c k proto' = drop_all c k proto.
Proof.
  intros E. induction ds as [|d ds IH]; intros s proto M; [exists s, proto; split; reflexivity|].
  cbn [dport_loop flat_map]. rewrite format_line_plain by exact E. destruct ds as [|d2 ds].
  - cbn [dport_loop flat_map]. eexists _, _. split; [reflexivity|apply drop_twice].
  - remember (d2 :: ds) as rest eqn:Er. assert (Md : multi d = true) by (subst rest; inversion M; assumption).
    assert (Mr : Forall (fun d => multi d = true) (removelast rest)) by (subst rest; inversion M; assumption). rewrite Md. rewrite andb_false_r.
    destruct (IH s (drop_all c k proto) Mr) as (s' & proto' & I1 & I2). rewrite I1, drop_twice in *. exists s', proto'. split; [reflexivity|exact I2].
Qed.
Lemma sport_loop_plain c t k flags icmp options ds : String.eqb (cb_proto k) "icmpv6" = false -> Forall (fun d => multi d = true) (removelast ds) -> forall ss proto,
  exists proto', sport_loop c t k flags (proto, icmp, options) ss ds =
    (flat_map (fun s => flat_map (fun d => one_line c t k (line_values c k flags (drop_all c k proto) icmp options s d)) ds) ss, (proto', icmp, options)).
Proof.
  intros E M. induction ss as [|s ss IH]; intros proto; [exists proto; reflexivity|]. cbn [sport_loop flat_map].
  destruct (dport_loop_plain c t k flags icmp options E ds s proto M) as (s' & p1 & D1 & D2). rewrite D1.
  destruct (IH p1) as (p2 & I). rewrite I, D2. exists p2. reflexivity.
Qed.

(** ** The pieces of a line *)

Definition like (st st' : reading) : Prop := rd_proto st' = rd_proto st /\ rd_flags st' = rd_flags st.
Definition side_text (letter : string) (o : option (list prange)) : string := match o with Some ch => render letter ch | None => "" end.
Definition side_says (o : option (list prange)) (n : Z) : Prop := match o with Some ch => in_ports ch n | None => True end.
Definition side_ok (st : reading) (o : option (list prange)) : Prop :=
  forall ch, o = Some ch -> with_ports st = true /\ ch <> [] /\ (slots_of ch <= 15)%nat /\ forall r, In r ch -> port_ok r.
Definition is_multi (o : option (list prange)) : bool := match o with Some (_ :: _ :: _) => true | _ => false end.
Lemma side_multi letter port st o : is_side letter port -> side_ok st o -> multi (side_text letter o) = is_multi o.
Proof.
  intros S K. destruct o as [ch|]; [|reflexivity]. destruct (K ch eq_refl) as (_ & N & _ & R). cbn [side_text]. unfold multi. destruct ch as [|r [|r2 ch]].
  - congruence.
  - cbn [is_multi]. eapply render_single; [exact S|apply R; left; reflexivity].
  - cbn [is_multi]. apply render_multi. cbn. lia.
Qed.
Lemma side_piece T v letter port st o : is_side letter port -> side_ok st o -> has_module "multiport" st = false \/ is_multi o = true \/ o = None ->
  piece T v st (side_text letter o) (fun p => side_says o (port p)) (if is_multi o then add_module "multiport" st else st).
Proof.
  intros S K M. destruct o as [ch|]; [|apply piece_nil]. destruct (K ch eq_refl) as (W & N & L & R). cbn [side_text side_says]. destruct ch as [|r [|r2 ch]].
  - congruence.
  - cbn [is_multi] in *. apply single_piece; [exact S|exact W|destruct M as [M|[M|M]]; [exact M|discriminate M|discriminate M]|apply R; left; reflexivity].
  - cbn [is_multi]. apply multi_piece; [exact S|exact W|cbn; lia|exact L|exact R].
Qed.
Lemma side_ok_like st st' o : like st st' -> side_ok st o -> side_ok st' o.
Proof. intros (L & _) K ch E. destruct (K ch E) as (W & R). split; [unfold with_ports in *; rewrite L; exact W|exact R]. Qed.
Lemma pieces_two T v st a c st1 b d st2 : piece T v st a c st1 -> piece T v st1 b d st2 -> pieces T v st [a; b] (fun p => c p /\ d p /\ True) st2.
Proof. intros A B. eapply pieces_cons; [exact A|]. eapply pieces_cons; [exact B|]. apply pieces_nil. Qed.
Lemma ports_pieces T v st so d_o : has_module "multiport" st = false -> side_ok st so -> side_ok st d_o ->
  exists c st', pieces T v st (in_order (side_text "s" so) (side_text "d" d_o)) c st' /\ like st st' /\
    forall p, c p <-> side_says so (p_sport p) /\ side_says d_o (p_dport p).
Proof.
  intros M Ks Kd. assert (Ss : is_side "s" p_sport) by (left; auto). assert (Sd : is_side "d" p_dport) by (right; auto).
  unfold in_order. rewrite (side_multi _ _ _ _ Ss Ks), (side_multi _ _ _ _ Sd Kd).
  destruct (is_multi so && negb (is_multi d_o)) eqn:E.
  - apply andb_true_iff in E. destruct E as (E1 & E2). apply negb_true_iff in E2.
    pose proof (side_piece T v _ _ st d_o Sd Kd (or_introl M)) as P1. rewrite E2 in P1.
    pose proof (side_piece T v _ _ st so Ss Ks (or_introl M)) as P2. rewrite E1 in P2.
    eexists _, _. split; [eapply pieces_two; [exact P1|exact P2]|]. split; [split; reflexivity|]. intros p. tauto.
  - pose proof (side_piece T v _ _ st so Ss Ks (or_introl M)) as P1. destruct (is_multi so) eqn:E1.
    + cbn [andb] in E. apply negb_false_iff in E.
      assert (Kd' : side_ok (add_module "multiport" st) d_o) by (eapply side_ok_like; [|exact Kd]; split; reflexivity).
      pose proof (side_piece T v _ _ _ d_o Sd Kd' (or_intror (or_introl E))) as P2. rewrite E in P2.
      eexists _, _. split; [eapply pieces_two; [exact P1|exact P2]|]. split; [split; reflexivity|]. intros p. tauto.
    + pose proof (side_piece T v _ _ st d_o Sd Kd (or_introl M)) as P2.
      eexists _, _. split; [eapply pieces_two; [exact P1|exact P2]|]. split; [destruct (is_multi d_o); split; reflexivity|]. intros p. tauto.
Qed.

(** The sides of a term, cut into statements. *)
Definition sides_of (ports : list prange) (l : list (option (list prange))) : Prop :=
  (ports = [] /\ l = [None]) \/
  (ports <> [] /\ exists chunks, l = map Some chunks /\ concat chunks = ports /\ Forall (fun ch => ch <> [] /\ (slots_of ch <= 15)%nat) chunks /\
     Forall (fun ch => (2 <= List.length ch)%nat) (removelast chunks)).
Lemma sides_exist letter ports : exists l, (if some ports then port_statements letter ports else [""]) = map (side_text letter) l /\ sides_of ports l.
Proof.
  destruct ports as [|r ports]; [exists [None]; split; [reflexivity|left; auto]|]. cbn [some].
  destruct (port_statements_spec letter (r :: ports)) as (chunks & E1 & E2 & E3 & E4). exists (map Some chunks). split.
  - rewrite E1, map_map. reflexivity.
  - right. split; [discriminate|]. exists chunks. auto.
Qed.
Lemma sides_ok st ports l : sides_of ports l -> (ports <> [] -> with_ports st = true /\ forall r, In r ports -> port_ok r) -> forall o, In o l -> side_ok st o.
Proof.
  intros [(-> & ->)|(N & chunks & -> & <- & F & _)] H o I ch E.
  - destruct I as [<-|[]]. discriminate E.
  - subst o. apply in_map_iff in I. destruct I as (x & X & I). injection X as ->. destruct (H N) as (W & R). split; [exact W|].
    destruct (proj1 (Forall_forall _ _) F ch I) as (A & B). split; [exact A|]. split; [exact B|]. intros r Ir. apply R. apply in_concat. exists ch. auto.
Qed.
Lemma sides_say ports l n : sides_of ports l -> ((exists o, In o l /\ side_says o n) <-> ports_match ports n).
Proof.
  unfold ports_match. intros [(-> & ->)|(N & chunks & -> & <- & F & _)].
  - split; [auto|]. intros _. exists None. split; [left; reflexivity|exact I].
  - split.
    + intros (o & I & S). apply in_map_iff in I. destruct I as (ch & <- & I). destruct S as (r & Ir & R). right. exists r. split; [apply in_concat; exists ch; auto|exact R].
    + intros [E|(r & I & R)]; [destruct (N E)|]. apply in_concat in I. destruct I as (ch & I1 & I2). exists (Some ch). split; [apply in_map, I1|]. exists r. auto.
Qed.
Lemma removelast_map {A B} (f : A -> B) l : removelast (map f l) = map f (removelast l).
Proof. induction l as [|a l IH]; [reflexivity|]. destruct l; [reflexivity|]. cbn [map removelast] in *. rewrite IH. reflexivity. Qed.
Lemma sides_multi letter port ports l : is_side letter port -> sides_of ports l -> Forall (fun d => multi d = true) (removelast (map (side_text letter) l)).
Proof.
  intros S [(-> & ->)|(N & chunks & -> & E & F & L)]; [constructor|]. rewrite map_map, removelast_map. apply Forall_forall. intros d I. apply in_map_iff in I.
  destruct I as (ch & <- & I). cbn [side_text]. apply render_multi. exact (proj1 (Forall_forall _ _) L ch I).
Qed.

(** ** Option texts *)

(** [syn]: the texts test the TCP flags. *)
Definition opts_say (T : packet -> Prop) (v : ver) (O : list string) (cond : packet -> Prop) (syn : bool) : Prop :=
  forall st, (syn = true -> proto_is "tcp" st = true /\ rd_flags st = false) ->
  exists e st', pieces T v st O e st' /\ (syn = false -> like st st') /\ forall p, T p -> e p <-> cond p.
Definition free (T : packet -> Prop) (v : ver) (s : string) (cond : packet -> Prop) : Prop :=
  forall st, exists st', piece T v st s cond st' /\ like st st'.
Lemma like_refl st : like st st.
Proof. split; reflexivity. Qed.
Lemma like_trans a b c : like a b -> like b c -> like a c.
Proof. intros (A & B) (C & D). split; congruence. Qed.
Lemma like_module m st : like st (add_module m st).
Proof. split; reflexivity. Qed.
Lemma like_tcp st st' q : like st st' -> proto_is q st = true -> proto_is q st' = true.
Proof. intros (L & _). unfold proto_is. rewrite L. auto. Qed.
Lemma opts_nil T v : opts_say T v [] (fun _ => True) false.
Proof. intros st _. exists (fun _ => True), st. split; [apply pieces_nil|]. split; [intros _; apply like_refl|tauto]. Qed.
Lemma opts_iff (T : packet -> Prop) v O (c d : packet -> Prop) syn : (forall p, T p -> c p <-> d p) -> opts_say T v O c syn -> opts_say T v O d syn.
Proof. intros E H st N. destruct (H st N) as (e & st' & A & B & C). exists e, st'. split; [exact A|]. split; [exact B|]. intros p Tp. rewrite (C p Tp). apply E, Tp. Qed.
Lemma opts_app (T : packet -> Prop) v A c s B d u : opts_say T v A c s -> opts_say T v B d u -> s && u = false -> opts_say T v (A ++ B) (fun p => c p /\ d p) (s || u).
Proof.
  intros HA HB N st H. destruct (HA st) as (e & st1 & A1 & A2 & A3). { intros ->. apply H. reflexivity. }
  destruct (HB st1) as (f & st2 & B1 & B2 & B3).
  { intros ->. assert (s = false) as -> by (destruct s; [discriminate N|reflexivity]). specialize (A2 eq_refl). destruct (H eq_refl) as (H1 & H2).
    split; [eapply like_tcp; eassumption|]. destruct A2 as (_ & ->). exact H2. }
  destruct (pieces_app _ _ _ _ _ _ _ _ _ A1 B1) as (g & G1 & G2). exists g, st2. split; [exact G1|]. split.
  - intros E. apply orb_false_iff in E. destruct E. eapply like_trans; [apply A2|apply B2]; assumption.
  - intros p Tp. rewrite G2, (A3 p Tp), (B3 p Tp). reflexivity.
Qed.
Lemma opts_free (T : packet -> Prop) v s cond : free T v s cond -> opts_say T v [s] cond false.
Proof.
  intros F st _. destruct (F st) as (st' & P & L). exists (fun p => cond p /\ True), st'. split; [|split; [auto|tauto]].
  eapply pieces_cons; [exact P|apply pieces_nil].
Qed.
Lemma opts_syn (T : packet -> Prop) v : opts_say T v ["--syn"] syn_only true.
Proof.
  intros st H. destruct (H eq_refl) as (H1 & H2). exists (fun p => syn_only p /\ True), (mkReading (rd_proto st) (rd_modules st) true). split; [|split; [discriminate|tauto]].
  eapply pieces_cons; [|apply pieces_nil]. apply (piece_one T v st _ ["--syn"]); [apply lit_words; reflexivity|]. intros r. cbn [app read_rule].
  cbn [String.eqb Ascii.eqb Bool.eqb]. rewrite H1, H2. reflexivity.
Qed.
Lemma free_iff (T : packet -> Prop) v s (c d : packet -> Prop) : (forall p, T p -> c p <-> d p) -> free T v s c -> free T v s d.
Proof. intros E F st. destruct (F st) as (st' & P & L). exists st'. split; [eapply piece_iff; eassumption|exact L]. Qed.
Lemma free_nil T v : free T v "" (fun _ => True).
Proof. intros st. exists st. split; [apply piece_nil|apply like_refl]. Qed.
Lemma free_value (T : packet -> Prop) v m f a c : In m known_modules -> plain_key f = true -> words a [a] -> (forall st, condition v (add_module m st) f a = Some c) ->
  free T v ("-m " ++ m ++ String " " (f ++ String " " a))%string c.
Proof. intros I K W E st. exists (add_module m st). split; [apply module_value_piece; auto|apply like_module]. Qed.
Definition state_est : string := "-m state --state ESTABLISHED,RELATED".
Definition state_new : string := "-m state --state NEW,ESTABLISHED,RELATED".
Lemma free_est (T : packet -> Prop) v : free T v state_est (fun p => p_option p "established").
Proof.
  eapply free_iff; [|apply (free_value T v "state" "--state" "ESTABLISHED,RELATED"); [cbn; auto|reflexivity|apply lit_words; reflexivity|intros st; reflexivity]].
  intros p _. unfold states_say. change (split_char "," "ESTABLISHED,RELATED") with ["ESTABLISHED"; "RELATED"]. split.
  - intros (w & [<-|[<-|[]]] & [(E & _)|(E & X)]); try discriminate E; exact X.
  - intros X. exists "ESTABLISHED". split; [left; reflexivity|right; auto].
Qed.
Lemma free_new (T : packet -> Prop) v : (forall p, T p -> p_option p "established" \/ ~ p_option p "established") -> free T v state_new (fun _ => True).
Proof.
  intros D. eapply free_iff; [|apply (free_value T v "state" "--state" "NEW,ESTABLISHED,RELATED"); [cbn; auto|reflexivity|apply lit_words; reflexivity|intros st; reflexivity]].
  intros p Tp. split; [auto|]. intros _. unfold states_say. change (split_char "," "NEW,ESTABLISHED,RELATED") with ["NEW"; "ESTABLISHED"; "RELATED"].
  destruct (D p Tp) as [X|X]; [exists "ESTABLISHED"|exists "NEW"]; (split; [cbn; auto|auto]).
Qed.
Lemma free_first (T : packet -> Prop) : free T V4 "-m u32 --u32 4&0x3FFF=0x2000" (fun p => p_option p "first-fragment").
Proof. apply (free_value T V4 "u32" "--u32" "4&0x3FFF=0x2000"); [cbn; auto|reflexivity|apply lit_words; reflexivity|intros st; reflexivity]. Qed.
Lemma free_hop (T : packet -> Prop) : free T V6 ("-m u32 --u32 " ++ String dquote "0x3&0xff=0x0" ++ String dquote "")%string (fun p => p_proto p = "hopopt").
Proof.
  intros st. exists (add_module "u32" st). split; [|apply like_module].
  apply (piece_iff T V6 st _ (fun p => True /\ p_proto p = "hopopt")); [tauto|].
  apply (piece_cat T V6 st "-m u32" (fun _ => True) (add_module "u32" st) ("--u32 " ++ String dquote "0x3&0xff=0x0" ++ String dquote "")%string); [apply module_piece; cbn; auto|].
  apply (piece_one T V6 _ _ ["--u32"; "0x3&0xff=0x0"]); [|intros r; reflexivity].
  apply (words_cat "--u32" (String dquote ("0x3&0xff=0x0" ++ String dquote ""))%string ["--u32"] ["0x3&0xff=0x0"]); [apply lit_words; reflexivity|apply words_quoted; reflexivity].
Qed.
Lemma free_frag (T : packet -> Prop) : free T V6 ("-m u32 --u32 " ++ String dquote "0x3&0xff=0x2c" ++ String dquote "")%string (fun p => p_proto p = "fragment").
Proof.
  intros st. exists (add_module "u32" st). split; [|apply like_module].
  apply (piece_iff T V6 st _ (fun p => True /\ p_proto p = "fragment")); [tauto|].
  apply (piece_cat T V6 st "-m u32" (fun _ => True) (add_module "u32" st) ("--u32 " ++ String dquote "0x3&0xff=0x2c" ++ String dquote "")%string); [apply module_piece; cbn; auto|].
  apply (piece_one T V6 _ _ ["--u32"; "0x3&0xff=0x2c"]); [|intros r; reflexivity].
  apply (words_cat "--u32" (String dquote ("0x3&0xff=0x2c" ++ String dquote ""))%string ["--u32"] ["0x3&0xff=0x2c"]); [apply lit_words; reflexivity|apply words_quoted; reflexivity].
Qed.
(** A range in the text of a policy, with the colon iptables wants. *)
Lemma colons_app a b : colons (a ++ b)%string = (colons a ++ colons b)%string.
Proof. unfold colons. induction a as [|x a IH]; [reflexivity|]. cbn [append map_string]. rewrite IH. reflexivity. Qed.
Lemma colons_none s : has_char "-" s = false -> colons s = s.
Proof.
  unfold colons. induction s as [|x s IH]; intros H; [reflexivity|]. cbn [has_char] in H. apply orb_false_iff in H. destruct H as (H1 & H2).
  cbn [map_string]. rewrite IH by exact H2. rewrite H1. reflexivity.
Qed.
Lemma colons_range lo hi : 0 <= lo <= hi -> colons (dec lo ++ "-" ++ dec hi)%string = (dec lo ++ ":" ++ dec hi)%string.
Proof. intros H. rewrite !colons_app, (colons_none (dec lo)), (colons_none (dec hi)) by (apply dec_no; [lia|reflexivity]). reflexivity. Qed.
Lemma no_dash n : 0 <= n -> has_char "-" (dec n) = false.
Proof. intros H. apply dec_no; [exact H|reflexivity]. Qed.
Lemma dash_text_says lo hi n : 0 <= lo -> 0 <= hi -> in_text_range (dec lo ++ "-" ++ dec hi)%string n <-> lo <= n <= hi.
Proof.
  intros A B. unfold in_text_range. split.
  - intros [H|(a & b & R & H)].
    + apply numeral_no_dash in H. rewrite has_char_app in H. cbn in H. rewrite orb_true_r in H. discriminate H.
    + assert (R' : range_of_text (dec lo ++ "-" ++ dec hi) lo hi) by (exists (dec lo), (dec hi); auto using dec_value).
      apply range_ints in R, R'. rewrite R in R'. injection R' as -> ->. exact H.
  - intros H. right. exists lo, hi. split; [|exact H]. exists (dec lo), (dec hi). auto using dec_value.
Qed.
Lemma number_says lo n : 0 <= lo -> in_text_range (dec lo) n <-> n = lo.
Proof.
  intros A. unfold in_text_range. rewrite dec_value by exact A. split.
  - intros [H|(a & b & (x & y & X & _) & _)]; [injection H as ->; reflexivity|].
    exfalso. pose proof (no_dash lo A) as D. rewrite X, has_char_app in D. cbn in D. rewrite orb_true_r in D. discriminate D.
  - intros ->. left. reflexivity.
Qed.
Lemma colon_text lo hi : 0 <= lo <= hi -> read_range (dec lo ++ ":" ++ dec hi)%string = Some (lo, hi) /\ plain_arg (dec lo ++ ":" ++ dec hi)%string.
Proof.
  intros H. split.
  - unfold read_range. change (append ":" (dec hi)) with (String ":" (dec hi)). rewrite split_char_app by (apply dec_no; [lia|reflexivity]).
    rewrite split_char_none by (apply dec_no; [lia|reflexivity]). cbn [map]. rewrite !number_dec by lia. replace (lo <=? hi) with true by lia. reflexivity.
  - apply plain_num; [pose proof (dec_nonempty lo); destruct (dec lo); [congruence|discriminate]|].
    assert (D : forall n, 0 <= n -> forall_char is_numc (dec n) = true).
    { intros n Hn. eapply forall_char_impl; [|exact (dec_digits n Hn)]. intros c E. unfold is_numc. rewrite E. reflexivity. }
    rewrite forall_char_app, D by lia. cbn [append forall_char]. rewrite D by lia. reflexivity.
Qed.
Lemma range_text_reads o : range_text_ok o -> given o = true -> exists lo hi, read_range (colons (given_text o)) = Some (lo, hi) /\ plain_arg (colons (given_text o)) /\
  forall n, text_range o n <-> SpecPorts.in_range (lo, hi) n.
Proof.
  intros K G. destruct o as [s|]; [|discriminate G]. assert (N : s <> "") by (intros ->; discriminate G).
  destruct (K s eq_refl N) as (lo & hi & H & [(E & ->)|E]).
  - exists lo, lo. cbn [given_text]. rewrite E, colons_none by (apply no_dash; lia). split; [|split].
    + unfold read_range. rewrite split_char_none by (apply dec_no; [lia|reflexivity]). cbn [map]. rewrite number_dec by lia. reflexivity.
    + apply dec_plain_arg. lia.
    + intros n. cbn [text_range]. rewrite number_says by lia. unfold SpecPorts.in_range. cbn [fst snd]. split; [intros [X|X]; [apply dec_nonempty in X; destruct X|lia]|intros X; right; lia].
  - exists lo, hi. cbn [given_text]. rewrite E, colons_range by exact H. destruct (colon_text lo hi H) as (R & P). split; [exact R|]. split; [exact P|].
    intros n. cbn [text_range]. rewrite dash_text_says by lia. unfold SpecPorts.in_range. cbn [fst snd]. split; [|auto].
    intros [X|X]; [|exact X]. exfalso. apply N. congruence.
Qed.
Lemma free_length (T : packet -> Prop) v o : range_text_ok o -> given o = true ->
  free T v ("-m length --length " ++ colons (given_text o))%string (fun p => text_range o (p_length p)).
Proof.
  intros K G. destruct (range_text_reads o K G) as (lo & hi & R & P & S). eapply free_iff; [intros p _; symmetry; apply S|].
  apply (free_value T v "length" "--length" (colons (given_text o))); [cbn; auto|reflexivity|apply words_plain, P|]. intros st. unfold condition.
  cbn [String.eqb Ascii.eqb Bool.eqb]. change (has_module "length" (add_module "length" st)) with true. cbv iota. rewrite R. reflexivity.
Qed.
Lemma free_offset (T : packet -> Prop) o : range_text_ok o -> given o = true ->
  free T V4 ("-m u32 --u32 4&0x1FFF=" ++ colons (given_text o))%string (fun p => text_range o (p_fragment p)).
Proof.
  intros K G. destruct (range_text_reads o K G) as (lo & hi & R & P & S). eapply free_iff; [intros p _; symmetry; apply S|].
  apply (free_value T V4 "u32" "--u32" ("4&0x1FFF=" ++ colons (given_text o))%string); [cbn; auto|reflexivity| |].
  - apply words_plain. split; [discriminate|]. rewrite forall_char_app. destruct P as (_ & ->). reflexivity.
  - intros st. unfold condition. cbn [String.eqb Ascii.eqb Bool.eqb]. change (has_module "u32" (add_module "u32" st)) with true. cbv iota. unfold u32_test.
    replace (String.eqb ("4&0x1FFF=" ++ colons (given_text o)) "4&0x3FFF=0x2000") with false by reflexivity.
    change (starts_with "4&0x1FFF=" ("4&0x1FFF=" ++ colons (given_text o))) with (starts_with "" (colons (given_text o))).
    replace (starts_with "" (colons (given_text o))) with true by (destruct (colons (given_text o)); reflexivity). change (after_char "=" ("4&0x1FFF=" ++ colons (given_text o))) with (colons (given_text o)). rewrite R. reflexivity.
Qed.
