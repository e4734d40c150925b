(** Proofs about the Google Compute Engine generator: what the rules of one term say. *)
From Coq Require Import Lia ZifyBool ZifyNat Permutation.
From Verif Require Import SpecGce BaseFacts PyStrFacts IPFacts CollapseProofs ExcludeProofs PolicyProofs GenProofs GenProofs2 TextProofs CiscoProofs IptPart GceProofs.
Local Open Scope string_scope.
Local Open Scope list_scope.
Local Open Scope Z_scope.

(** ** Protocols *)
Definition gconv (q : string) : pval :=
  if str_in q gce_numbered then match assoc q proto_map with Some n => PNum n | None => PNum 0 end else PName q.
Lemma assoc_some {A} (k : string) (m : list (string * A)) : In k (map fst m) -> exists v, assoc k m = Some v.
Proof.
  induction m as [|[a b] m IH]; intros H; [destruct H|]. cbn [assoc]. destruct (String.eqb k a) eqn:E; [eauto|].
  cbn [map fst] in H. destruct H as [H|H]; [subst a; rewrite String.eqb_refl in E; discriminate E|auto].
Qed.
Lemma gce_protocols names : (forall q, In q names -> In q (map fst proto_map)) ->
  term_protocols gce_numbered names = Ok (map gconv names).
Proof.
  intros H. unfold term_protocols. destruct names as [|n0 ns]; [reflexivity|]. cbn [some]. revert H. generalize (n0 :: ns). intros l H.
  replace (forallb _ l) with true.
  - unfold protocol_name_to_number. induction l as [|q l IH]; [reflexivity|]. cbn [mapM map]. rewrite IH by (intros; apply H; right; assumption).
    unfold gconv at 2. destruct (str_in q gce_numbered); [|reflexivity].
    destruct (assoc_some q proto_map (H q (or_introl eq_refl))) as [n ->]. reflexivity.
  - symmetry. apply forallb_forall. intros q Hq. destruct (assoc_some q proto_map (H q Hq)) as [n ->]. reflexivity.
Qed.
Lemma proto_inj a b n : In (a, n) proto_map -> In (b, n) proto_map -> a = b.
Proof.
  intros A B.
  assert (C : forallb (fun x => forallb (fun y => negb (snd x =? snd y) || String.eqb (fst x) (fst y)) proto_map) proto_map = true) by (vm_compute; reflexivity).
  rewrite forallb_forall in C. specialize (C _ A). cbv beta in C. rewrite forallb_forall in C. specialize (C _ B). cbn [fst snd] in C.
  rewrite Z.eqb_refl in C. apply String.eqb_eq. exact C.
Qed.
Lemma gconv_says q p : In q (map fst proto_map) -> In (p_proto p) (map fst proto_map) -> p_proto p <> "all" ->
  protocol_says (pval_json (gconv q)) p <-> q = "all" \/ q = p_proto p.
Proof.
  intros Q P N. unfold gconv. destruct (str_in q gce_numbered) eqn:E.
  - destruct (assoc_some q proto_map Q) as [n A]. rewrite A. cbn [pval_json protocol_says]. apply assoc_in in A. split.
    + intros H. right. exact (proto_inj _ _ _ A H).
    + intros [->| ->]; [discriminate E|exact A].
  - cbn [pval_json protocol_says]. split; [|tauto]. intros [H|[H|(n & H & _)]]; [auto|auto|]. exfalso.
    assert (C : forallb (fun x => str_in x gce_numbered || match numeral_value x with None => true | _ => false end) (map fst proto_map) = true)
      by (vm_compute; reflexivity).
    rewrite forallb_forall in C. specialize (C q Q). rewrite E, H in C. discriminate C.
Qed.
Definition foreign (v : ver) : list string := match v with V4 => ["icmpv6"] | V6 => ["icmp"; "igmp"] end.
Lemma gconv_kept v q : In q (map fst proto_map) -> ~ In q (foreign v) -> proto_left_out v (gconv q) = false.
Proof.
  intros Q F.
  assert (C : forallb (fun x => str_in x (foreign v) || negb (proto_left_out v (gconv x))) (map fst proto_map) = true)
    by (destruct v; vm_compute; reflexivity).
  rewrite forallb_forall in C. specialize (C q Q). cbv beta in C.
  destruct (str_in q (foreign v)) eqn:E; [exfalso; apply F, str_in_spec, E|]. destruct (proto_left_out v (gconv q)); [discriminate C|reflexivity].
Qed.

(** ** Entries *)
Definition protos_in (t : term) (p : packet) : Prop :=
  t_protocol t = [] \/ In "all" (t_protocol t) \/ In (p_proto p) (t_protocol t).
Lemma gce_ports_say t p : (forall r, In r (t_destination_port t) -> 0 <= fst r <= snd r) -> t_destination_port t <> [] ->
  (exists s, In (JStr s) (map gce_port (t_destination_port t)) /\ in_text_range s (p_dport p)) <-> in_ports (t_destination_port t) (p_dport p).
Proof.
  intros H _. unfold in_ports, in_range.
  assert (K : forall r, In r (t_destination_port t) -> exists s, gce_port r = JStr s /\ (in_text_range s (p_dport p) <-> fst r <= p_dport p <= snd r)).
  { intros r I. specialize (H r I). unfold gce_port. eexists. split; [reflexivity|]. destruct (fst r =? snd r) eqn:E.
    - rewrite number_says by lia. lia.
    - apply dash_text_says; lia. }
  split.
  - intros (s & I & R). apply in_map_iff in I. destruct I as (r & E & I). destruct (K r I) as (s' & E' & K'). rewrite E' in E. injection E as ->.
    exists r. split; [exact I|apply K', R].
  - intros (r & I & R). destruct (K r I) as (s' & E' & K'). exists s'. split; [rewrite <- E'; apply in_map, I|apply K', R].
Qed.
Lemma entry_iff t q p : (forall r, In r (t_destination_port t) -> 0 <= fst r <= snd r) ->
  entry_says (gce_entry t q) p <-> protocol_says (pval_json q) p /\ ports_match (t_destination_port t) (p_dport p).
Proof.
  intros H. unfold entry_says, gce_entry, ports_match. destruct (some (t_destination_port t)) eqn:E.
  - apply some_true in E. pose proof (gce_ports_say t p H E) as G. split.
    + intros (d & x & D & A & P & Q). injection D as <-. cbn [assoc String.eqb Ascii.eqb Bool.eqb] in A. injection A as <-. split; [exact P|].
      destruct Q as [Q|(l & s & Q & I & R)].
      * discriminate Q.
      * cbn [assoc String.eqb Ascii.eqb Bool.eqb] in Q. injection Q as <-. right. apply G. eauto.
    + intros (P & [Q|Q]); [contradiction|]. eexists. eexists. split; [reflexivity|]. split; [reflexivity|]. split; [exact P|]. right.
      apply G in Q. destruct Q as (s & I & R). eexists. exists s. split; [reflexivity|]. auto.
  - apply some_false in E. split.
    + intros (d & x & D & A & P & _). injection D as <-. cbn [assoc String.eqb Ascii.eqb Bool.eqb] in A. injection A as <-. auto.
    + intros (P & _). eexists. eexists. split; [reflexivity|]. split; [reflexivity|]. split; [exact P|]. left. reflexivity.
Qed.

(** ** The part that all rules of a term share *)
Definition tags_text (l : list string) : option json := match l with [] => None | _ => Some (jstrings l) end.
Record dict_facts (dir network : string) (g : gce_term) (t : term) (d : list (string * json)) : Prop := {
  df_direction : assoc "direction" d = Some (JStr dir);
  df_network : in_network network d;
  df_priority : assoc "priority" d = g_priority g;
  df_source : assoc "sourceTags" d = if String.eqb dir "INGRESS" then tags_text (t_source_tag t) else None;
  df_target : assoc "targetTags" d = tags_text (if String.eqb dir "INGRESS" then t_destination_tag t else t_source_tag t);
  df_none : assoc "sourceRanges" d = None /\ assoc "destinationRanges" d = None /\ assoc "allowed" d = None /\ assoc "denied" d = None }.
Lemma no_empty_filter l : ~ In "" l -> filter (fun s => negb (is_empty s)) l = l.
Proof.
  induction l as [|s l IH]; intros H; [reflexivity|]. cbn [filter]. destruct s as [|c s]; [exfalso; apply H; left; reflexivity|].
  cbn [is_empty negb]. rewrite IH; [reflexivity|]. intros I. apply H. right. exact I.
Qed.
Lemma term_dict_facts dir network m6 comment g t d : term_dict dir network m6 comment g t = Ok d ->
  (dir = "INGRESS" \/ dir = "EGRESS") -> g_source_accounts g = [] -> g_target_accounts g = [] ->
  ~ In "" (t_source_tag t ++ t_destination_tag t) -> dict_facts dir network g t d.
Proof.
  intros H Dir A1 A2 N. unfold term_dict in H. rewrite A1, A2 in H.
  rewrite !no_empty_filter in H by (intros I; apply N, in_or_app; auto).
  destruct (30 <? _)%nat; [discriminate H|]. destruct (70 <? _)%nat; [discriminate H|]. cbn [List.length Nat.ltb Nat.leb orb some] in H.
  cbv zeta in H.
  set (d0 := [("description", JStr (slice_to (join " " comment) 2047)); ("name", JStr (t_name t)); ("direction", JStr dir)]) in H.
  set (d1 := if is_empty network then d0 else jset "name" (JStr (append (last_part network) (append "-" (t_name t)))) (jset "network" (JStr network) d0)) in H.
  set (d2 := if m6 then jset "name" (JStr (append (rule_name d1) "-v6")) d1 else d1) in H.
  assert (D2 : forall k, k <> "name" -> k <> "network" -> assoc k d2 = assoc k d0).
  { intros k K1 K2. apply String.eqb_neq in K1, K2. unfold d2, d1. destruct m6, (is_empty network); rewrite ?assoc_jset, ?K1, ?K2; reflexivity. }
  assert (D3 : in_network network d2).
  { unfold in_network, d2, d1. destruct m6, (is_empty network); fields; reflexivity. }
  clearbody d2. clear d1. cbn [andb] in H.
  apply ok_inj in H. subst d.
  destruct Dir as [->| ->]; cbn [String.eqb Ascii.eqb Bool.eqb andb] in *; rewrite ?andb_true_r, ?andb_false_r;
    destruct (t_source_tag t) as [|s1 sl] eqn:Es; destruct (t_destination_tag t) as [|x1 xl] eqn:Ed; cbn [some];
    (constructor; unfold in_network in *;
     destruct (g_priority g) eqn:Ep; fields; rewrite ?Es, ?Ed; cbn [String.eqb Ascii.eqb Bool.eqb tags_text];
     try (rewrite D2 by discriminate; reflexivity); try reflexivity; try exact D3;
     repeat split; fields; try (rewrite D2 by discriminate; reflexivity)).
Qed.

(** ** One rule *)
Definition tag_hit (l : list string) (P : string -> Prop) : Prop := exists s, In s l /\ P s.
Lemma tags_lists r k l P : assoc k r = tags_text l -> lists r k P <-> tag_hit l P.
Proof.
  intros H. unfold lists, tag_hit. rewrite H. split.
  - intros (x & s & E & I & Q). destruct l as [|s0 l]; [discriminate E|]. cbn [tags_text jstrings] in E. injection E as <-.
    exists s. split; [|exact Q]. cbn [map] in I. change (In (JStr s) (map JStr (s0 :: l))) in I. apply in_map_iff in I. destruct I as (s' & E & I). injection E as ->. exact I.
  - intros (s & I & Q). destruct l as [|s0 l]; [destruct I|]. eexists. exists s. split; [reflexivity|]. split; [apply in_map, I|exact Q].
Qed.
Lemma tags_silent r k l : assoc k r = tags_text l -> silent r k <-> l = [].
Proof. intros H. unfold silent. rewrite H. destruct l; split; (reflexivity || discriminate). Qed.
Definition ranges (o : option (list net)) : option json := match o with Some c => Some (jstrings (map prefixlen_text c)) | None => None end.
Record rule_facts (dir network : string) (g : gce_term) (t : term) (a : string) (es : list json) (cs cd : option (list net)) (r : rule_dict) : Prop := {
  rf_direction : assoc "direction" r = Some (JStr dir);
  rf_network : in_network network r;
  rf_priority : assoc "priority" r = g_priority g;
  rf_source : assoc "sourceTags" r = if String.eqb dir "INGRESS" then tags_text (t_source_tag t) else None;
  rf_target : assoc "targetTags" r = tags_text (if String.eqb dir "INGRESS" then t_destination_tag t else t_source_tag t);
  rf_from : assoc "sourceRanges" r = ranges cs;
  rf_to : assoc "destinationRanges" r = ranges cd;
  rf_entries : forall k, In k ["allowed"; "denied"] -> assoc k r = if match assoc a gce_actions with Some k' => String.eqb k k' | None => false end then Some (JList es) else None }.
Definition in_chunk (o : option (list net)) (x : ipaddr) : Prop := match o with Some c => covered c x | None => False end.
Lemma rule_facts_says dir network g t a es cs cd r p v : rule_facts dir network g t a es cs cd r ->
  (dir = "INGRESS" \/ dir = "EGRESS") -> on_net (p_src p) -> on_net (p_dst p) ->
  (forall c, cs = Some c -> valid_list c) -> (forall c, cd = Some c -> valid_list c) ->
  rule_says dir r p v <->
  ((cs = None /\ (dir = "INGRESS" -> t_source_tag t = [])) \/ in_chunk cs (p_src p) \/ (dir = "INGRESS" /\ tag_hit (t_source_tag t) (p_src_tag p))) /\
  (cd = None \/ in_chunk cd (p_dst p)) /\
  any_or (if String.eqb dir "INGRESS" then t_destination_tag t else t_source_tag t) (if String.eqb dir "INGRESS" then p_dst_tag p else p_src_tag p) /\
  a = v /\ In a ["accept"; "deny"] /\ exists e, In e es /\ entry_says e p.
Proof.
  intros F Dir Ns Nd Vs Vd. unfold rule_says, from_ok, to_ok, target_ok, any_or.
  rewrite (tags_lists _ _ _ _ (rf_target _ _ _ _ _ _ _ _ _ F)), (tags_silent _ _ _ (rf_target _ _ _ _ _ _ _ _ _ F)).
  assert (RS : silent r "sourceRanges" <-> cs = None).
  { unfold silent. rewrite (rf_from _ _ _ _ _ _ _ _ _ F). destruct cs; cbn; split; (reflexivity || discriminate). }
  assert (RD : silent r "destinationRanges" <-> cd = None).
  { unfold silent. rewrite (rf_to _ _ _ _ _ _ _ _ _ F). destruct cd; cbn; split; (reflexivity || discriminate). }
  assert (LS : lists r "sourceRanges" (range_has (p_src p)) <-> in_chunk cs (p_src p)).
  { pose proof (rf_from _ _ _ _ _ _ _ _ _ F) as E. destruct cs as [c|]; cbn [ranges in_chunk] in *.
    - apply lists_ranges; auto.
    - split; [|intros []]. intros (l & s & E' & _). congruence. }
  assert (LD : lists r "destinationRanges" (range_has (p_dst p)) <-> in_chunk cd (p_dst p)).
  { pose proof (rf_to _ _ _ _ _ _ _ _ _ F) as E. destruct cd as [c|]; cbn [ranges in_chunk] in *.
    - apply lists_ranges; auto.
    - split; [|intros []]. intros (l & s & E' & _). congruence. }
  assert (TS : silent r "sourceTags" <-> (dir = "INGRESS" -> t_source_tag t = [])).
  { pose proof (rf_source _ _ _ _ _ _ _ _ _ F) as E. destruct Dir as [->| ->]; cbn [String.eqb Ascii.eqb Bool.eqb] in E.
    - rewrite (tags_silent _ _ _ E). tauto.
    - unfold silent. rewrite E. split; [discriminate|reflexivity]. }
  assert (TL : lists r "sourceTags" (p_src_tag p) <-> dir = "INGRESS" /\ tag_hit (t_source_tag t) (p_src_tag p)).
  { pose proof (rf_source _ _ _ _ _ _ _ _ _ F) as E. destruct Dir as [->| ->]; cbn [String.eqb Ascii.eqb Bool.eqb] in E.
    - rewrite (tags_lists _ _ _ _ E). tauto.
    - split; [intros (l & s & E' & _); congruence|intros [X _]; discriminate X]. }
  assert (EN : (exists key l e, verdict_key v = Some key /\ assoc key r = Some (JList l) /\ In e l /\ entry_says e p) <->
     a = v /\ In a ["accept"; "deny"] /\ exists e, In e es /\ entry_says e p).
  { pose proof (rf_entries _ _ _ _ _ _ _ _ _ F) as E. unfold verdict_key, gce_actions in *. cbn [assoc] in E. split.
    - intros (key & l & e & K & L & I & S).
      destruct (String.eqb v "accept") eqn:E1.
      + injection K as <-. apply String.eqb_eq in E1. rewrite (E "allowed") in L by (left; reflexivity).
        destruct (String.eqb a "accept") eqn:A1; [|destruct (String.eqb a "deny"); discriminate L].
        apply String.eqb_eq in A1. cbn in L. injection L as <-. subst. split; [reflexivity|]. split; [left; reflexivity|eauto].
      + destruct (String.eqb v "deny") eqn:E2; [|discriminate K]. injection K as <-. apply String.eqb_eq in E2.
        rewrite (E "denied") in L by (right; left; reflexivity). destruct (String.eqb a "accept") eqn:A1; [discriminate L|].
        destruct (String.eqb a "deny") eqn:A2; [|discriminate L]. apply String.eqb_eq in A2. cbn in L. injection L as <-. subst.
        split; [reflexivity|]. split; [right; left; reflexivity|eauto].
    - intros (<- & I & e & Ie & S). destruct I as [<-|[<-|[]]].
      + exists "allowed", es, e. split; [reflexivity|]. split; [exact (E _ (or_introl eq_refl))|]. auto.
      + exists "denied", es, e. split; [reflexivity|]. split; [exact (E _ (or_intror (or_introl eq_refl)))|]. auto. }
  unfold tag_hit in *. rewrite RS, RD, LS, LD, TS, TL, EN. pose proof (rf_direction _ _ _ _ _ _ _ _ _ F) as DD.
  split; [intros [_ X]; exact X|intros X; split; [exact DD|exact X]].
Qed.

(** ** The rules of one family *)
Record ready (dir : string) (t : term) : Prop := {
  rd_action : exists a, t_action t = [a];
  rd_texts : ~ In "" (t_source_tag t ++ t_destination_tag t);
  rd_protocol : forall q, In q (t_protocol t) -> In q (map fst proto_map);
  rd_ports : forall r, In r (t_destination_port t) -> 0 <= fst r <= snd r;
  rd_valid : valid_list (t_source_address t) /\ valid_list (t_destination_address t);
  rd_style : forall n, In n (t_source_address t ++ t_destination_address t) -> ipv4_format n = false;
  rd_in : dir = "INGRESS" -> t_destination_address t = [] /\ (t_source_address t <> [] \/ t_source_tag t <> []);
  rd_out : dir = "EGRESS" -> t_source_address t = [] /\ t_destination_address t <> [] }.
Definition who (dir : string) (t : term) (p : packet) : Prop :=
  if String.eqb dir "INGRESS" then covered (t_source_address t) (p_src p) \/ tag_hit (t_source_tag t) (p_src_tag p)
  else covered (t_destination_address t) (p_dst p).
Definition hit (dir : string) (t : term) (p : packet) : Prop :=
  who dir t p /\
  any_or (if String.eqb dir "INGRESS" then t_destination_tag t else t_source_tag t) (if String.eqb dir "INGRESS" then p_dst_tag p else p_src_tag p) /\
  protos_in t p /\ ports_match (t_destination_port t) (p_dport p).
Definition known_proto (p : packet) : Prop := In (p_proto p) (map fst proto_map) /\ p_proto p <> "all".
(** the entries of the rules, for the family *)
Definition kept (v : ver) (t : term) : list pval :=
  if some (t_protocol t) then filter (fun q => negb (proto_left_out v q)) (map gconv (t_protocol t)) else [PName "all"].
Lemma entries_sound v t p : (forall q, In q (t_protocol t) -> In q (map fst proto_map)) -> known_proto p ->
  (forall r, In r (t_destination_port t) -> 0 <= fst r <= snd r) ->
  (exists e, In e (map (gce_entry t) (kept v t)) /\ entry_says e p) -> protos_in t p /\ ports_match (t_destination_port t) (p_dport p).
Proof.
  intros Q [P1 P2] B (e & I & S). apply in_map_iff in I. destruct I as (q & <- & I). apply (entry_iff t q p B) in S. destruct S as [S M]. split; [|exact M].
  unfold kept, protos_in in *. destruct (some (t_protocol t)) eqn:E; [|left; apply some_false, E].
  apply filter_In in I. destruct I as [I _]. apply in_map_iff in I. destruct I as (q' & <- & I).
  apply gconv_says in S; auto. destruct S as [->| ->]; auto.
Qed.
Lemma entries_complete v t p : (forall q, In q (t_protocol t) -> In q (map fst proto_map)) -> known_proto p ->
  (forall r, In r (t_destination_port t) -> 0 <= fst r <= snd r) -> ~ In (p_proto p) (foreign v) \/ ~ In (p_proto p) (t_protocol t) ->
  protos_in t p -> ports_match (t_destination_port t) (p_dport p) ->
  exists e, In e (map (gce_entry t) (kept v t)) /\ entry_says e p.
Proof.
  intros Q [P1 P2] B F P M. unfold kept, protos_in in *.
  assert (X : exists q, In q (if some (t_protocol t) then filter (fun q => negb (proto_left_out v q)) (map gconv (t_protocol t)) else [PName "all"]) /\
    protocol_says (pval_json q) p).
  { destruct (some (t_protocol t)) eqn:E.
    - apply some_true in E. destruct P as [P|[P|P]]; [contradiction| |].
      + exists (PName "all"). split; [|left; reflexivity]. apply filter_In. split; [|destruct v; reflexivity].
        change (PName "all") with (gconv "all"). apply in_map, P.
      + exists (gconv (p_proto p)). split; [|apply gconv_says; auto]. apply filter_In. split; [apply in_map, P|].
        rewrite gconv_kept; [reflexivity|exact P1|]. destruct F as [F|F]; [exact F|contradiction].
    - exists (PName "all"). split; [left; reflexivity|left; reflexivity]. }
  destruct X as (q & I & S). exists (gce_entry t q). split; [apply in_map, I|]. apply entry_iff; auto.
Qed.

Lemma some_map {A B} (f : A -> B) l : some (map f l) = some l.
Proof. destruct l; reflexivity. Qed.
Lemma convert_shape dir network v m6 comment g t rules : convert_to_dict dir network v m6 comment g t (map gconv (t_protocol t)) = Ok rules ->
  (dir = "INGRESS" \/ dir = "EGRESS") -> g_source_accounts g = [] -> g_target_accounts g = [] -> ready dir t ->
  (rules = [] /\ ((m6 = true /\ t_source_address t = [] /\ t_destination_address t = []) \/
     (t_source_address t <> [] /\ gce_addresses v (t_source_address t) = []) \/
     (t_destination_address t <> [] /\ gce_addresses v (t_destination_address t) = []) \/ kept v t = [])) \/
  (exists a d, t_action t = [a] /\ In a ["accept"; "deny"] /\
     rule_facts dir network g t a (map (gce_entry t) (kept v t)) None None d /\
     rules = (if some (gce_addresses v (t_source_address t)) then address_rules "sourceRanges" (gce_addresses v (t_source_address t)) d
              else if some (gce_addresses v (t_destination_address t)) then address_rules "destinationRanges" (gce_addresses v (t_destination_address t)) d
              else [d]) /\
     (t_source_address t <> [] -> gce_addresses v (t_source_address t) <> []) /\
     (t_destination_address t <> [] -> gce_addresses v (t_destination_address t) <> [])).
Proof.
  intros H Dir A1 A2 R. unfold convert_to_dict in H. destruct (term_dict dir network m6 comment g t) as [d|] eqn:E; [|discriminate H]. cbn [bind] in H.
  pose proof (term_dict_facts _ _ _ _ _ _ _ E Dir A1 A2 (rd_texts _ _ R)) as D. clear E. cbv zeta in H.
  destruct (m6 && negb (some (t_source_address t)) && negb (some (t_destination_address t)) && (jhas "targetTags" d || jhas "sourceTags" d)) eqn:E1.
  { left. apply ok_inj in H. subst rules. split; [reflexivity|]. left. apply andb_true_iff in E1. destruct E1 as [E1 _].
    apply andb_true_iff in E1. destruct E1 as [E1 E3]. apply andb_true_iff in E1. destruct E1 as [E1 E2].
    apply negb_true_iff, some_false in E2, E3. auto. }
  destruct (some (t_source_address t) && negb (some (gce_addresses v (t_source_address t)))) eqn:E2.
  { left. apply ok_inj in H. subst rules. split; [reflexivity|]. right. left. apply andb_true_iff in E2. destruct E2 as [X Y].
    apply negb_true_iff, some_false in Y. apply some_true in X. auto. }
  destruct (some (t_destination_address t) && negb (some (gce_addresses v (t_destination_address t)))) eqn:E3.
  { left. apply ok_inj in H. subst rules. split; [reflexivity|]. right. right. left. apply andb_true_iff in E3. destruct E3 as [X Y].
    apply negb_true_iff, some_false in Y. apply some_true in X. auto. }
  assert (K : (if some (map gconv (t_protocol t)) then filter (fun p => negb (proto_left_out v p)) (map gconv (t_protocol t)) else [PName "all"]) = kept v t).
  { unfold kept. rewrite some_map. reflexivity. }
  rewrite K in H. clear K.
  destruct (negb (some (kept v t))) eqn:E4.
  { left. apply ok_inj in H. subst rules. split; [reflexivity|]. right. right. right. apply negb_true_iff, some_false in E4. exact E4. }
  right. destruct (256 <? _)%nat; [discriminate H|]. destruct (rd_action _ _ R) as [a A]. rewrite A in H.
  destruct (assoc a gce_actions) as [key|] eqn:Ea; [|discriminate H].
  match type of H with (if ?b then _ else _) = _ => destruct b; [discriminate H|] end. apply ok_inj in H.
  match type of H with (if _ then address_rules _ _ ?x else _) = _ => exists a, x end. split; [exact A|].
  assert (Ka : In a ["accept"; "deny"] /\ In key ["allowed"; "denied"]).
  { unfold gce_actions in Ea. cbn [assoc] in Ea. destruct (String.eqb a "accept") eqn:X; [apply String.eqb_eq in X; injection Ea as <-; subst a; cbn; auto|].
    destruct (String.eqb a "deny") eqn:Y; [apply String.eqb_eq in Y; injection Ea as <-; subst a; cbn; auto|discriminate Ea]. }
  destruct Ka as [Ka Kk]. split; [exact Ka|]. split.
  { set (d' := if some (t_logging t) then jset "logConfig" (JDict [("enable", JBool true)]) d else d).
    assert (L : forall k, k <> "logConfig" -> assoc k d' = assoc k d).
    { intros k N. unfold d'. destruct (some (t_logging t)); [|reflexivity]. rewrite assoc_jset. apply String.eqb_neq in N. rewrite N. reflexivity. }
    clearbody d'.
    assert (L' : forall k, k <> "logConfig" -> ~ In k ["allowed"; "denied"] ->
       assoc k (jset key (JList (map (gce_entry t) (kept v t))) d') = assoc k d).
    { intros k N1 N2. rewrite assoc_jset. destruct (String.eqb k key) eqn:X; [apply String.eqb_eq in X; subst; contradiction|]. apply L, N1. }
    assert (NN : forall k, k <> "allowed" -> k <> "denied" -> ~ In k ["allowed"; "denied"]) by (intros k N1 N2 [X|[X|[]]]; congruence).
    destruct D as [D1 D2 D3 D4 D5 (D6 & D7 & D8 & D9)].
    constructor; unfold in_network in *; try (rewrite L' by (discriminate || (apply NN; discriminate)); assumption).
    intros k Ik. rewrite Ea, assoc_jset. destruct (String.eqb k key); [reflexivity|]. destruct Ik as [<-|[<-|[]]]; rewrite L by discriminate; assumption. }
  split; [symmetry; exact H|]. split; intros X; apply some_true in X; rewrite X in *.
  - destruct (some (gce_addresses v (t_source_address t))) eqn:Y; [apply some_true, Y|discriminate E2].
  - destruct (some (gce_addresses v (t_destination_address t))) eqn:Y; [apply some_true, Y|discriminate E3].
Qed.
Lemma source_chunk dir network g t a es d r c : rule_facts dir network g t a es None None d ->
  assoc "sourceRanges" r = Some (jstrings (map prefixlen_text c)) ->
  (forall k, k <> "name" -> k <> "sourceRanges" -> assoc k r = assoc k d) -> rule_facts dir network g t a es (Some c) None r.
Proof.
  intros [F1 F2 F3 F4 F5 F6 F7 F8] E K. constructor; unfold in_network in *; try (rewrite K by discriminate; assumption); [exact E|].
  intros k I. rewrite K; [apply F8, I| |]; destruct I as [<-|[<-|[]]]; discriminate.
Qed.
Lemma destination_chunk dir network g t a es d r c : rule_facts dir network g t a es None None d ->
  assoc "destinationRanges" r = Some (jstrings (map prefixlen_text c)) ->
  (forall k, k <> "name" -> k <> "destinationRanges" -> assoc k r = assoc k d) -> rule_facts dir network g t a es None (Some c) r.
Proof.
  intros [F1 F2 F3 F4 F5 F6 F7 F8] E K. constructor; unfold in_network in *; try (rewrite K by discriminate; assumption); [exact E|].
  intros k I. rewrite K; [apply F8, I| |]; destruct I as [<-|[<-|[]]]; discriminate.
Qed.
Lemma gce_addresses_nil v : gce_addresses v [] = [].
Proof. reflexivity. Qed.
Lemma covered_incl c l x : incl c l -> covered c x -> covered l x.
Proof. intros I (n & N & C). exists n. split; [apply I, N|exact C]. Qed.
Lemma covered_addresses v l x : covered (gce_addresses v l) x -> covered l x.
Proof. intros (n & N & C). exists n. split; [apply gce_addresses_in in N; apply N|exact C]. Qed.
Lemma valid_incl c l : incl c l -> valid_list l -> valid_list c.
Proof. intros I. unfold valid_list. rewrite !Forall_forall. intros H n N. apply H, I, N. Qed.

Section OnePass.
  Variables (dir network : string) (v : ver) (m6 : bool) (comment : list string) (g : gce_term) (t : term) (rules : list rule_dict).
  Hypothesis run : convert_to_dict dir network v m6 comment g t (map gconv (t_protocol t)) = Ok rules.
  Hypothesis Dir : dir = "INGRESS" \/ dir = "EGRESS".
  Hypothesis A1 : g_source_accounts g = [].
  Hypothesis A2 : g_target_accounts g = [].
  Hypothesis R : ready dir t.
  Let es := map (gce_entry t) (kept v t).
  (* every rule, with its ranges *)
  Lemma pass_rules_ r : In r rules -> exists a cs cd, t_action t = [a] /\ rule_facts dir network g t a es cs cd r /\
    (forall c, cs = Some c -> valid_list c /\ incl c (t_source_address t)) /\ (forall c, cd = Some c -> valid_list c /\ incl c (t_destination_address t)) /\
    (t_source_address t <> [] -> cs <> None) /\ (dir = "EGRESS" -> cd <> None).
  Proof.
    intros I. destruct (convert_shape _ _ _ _ _ _ _ _ run Dir A1 A2 R) as [[E _]|(a & d & A & K & F & E & S & D)]; [rewrite E in I; destruct I|].
    fold es in F. rewrite E in I. clear E. exists a.
    assert (In_a : forall w l, incl (gce_addresses w l) l) by (intros w l n N; apply gce_addresses_in in N; apply N).
    destruct (rd_valid _ _ R) as [Vs Vd].
    assert (Vs' := valid_incl _ _ (In_a v (t_source_address t)) Vs). assert (Vd' := valid_incl _ _ (In_a v (t_destination_address t)) Vd).
    destruct (some (gce_addresses v (t_source_address t))) eqn:Es.
    - apply (address_rules_spec "sourceRanges") in I; [|discriminate]. destruct I as (c & C1 & _ & C2 & C3). exists (Some c), None. split; [exact A|].
      split; [exact (source_chunk _ _ _ _ _ _ _ _ _ F C2 C3)|]. split.
      { intros c' X. injection X as <-. split; [exact (valid_incl _ _ C1 Vs')|]. intros n N. apply (In_a v), C1, N. }
      split; [discriminate|]. split; [discriminate|]. intros X. exfalso. apply some_true in Es. apply Es. rewrite (proj1 (rd_out _ _ R X)). reflexivity.
    - apply some_false in Es. assert (Sn : t_source_address t = []).
      { destruct (some (t_source_address t)) eqn:X; [|apply some_false, X]. apply some_true in X. exfalso. exact (S X Es). }
      destruct (some (gce_addresses v (t_destination_address t))) eqn:Ed.
      + apply (address_rules_spec "destinationRanges") in I; [|discriminate]. destruct I as (c & C1 & _ & C2 & C3). exists None, (Some c). split; [exact A|].
        split; [exact (destination_chunk _ _ _ _ _ _ _ _ _ F C2 C3)|]. split; [discriminate|]. split.
        { intros c' X. injection X as <-. split; [exact (valid_incl _ _ C1 Vd')|]. intros n N. apply (In_a v), C1, N. }
        split; [intros X; contradiction|discriminate].
      + destruct I as [<-|[]]. exists None, None. split; [exact A|]. split; [exact F|]. split; [discriminate|]. split; [discriminate|].
        split; [intros X; contradiction|]. intros X _. apply some_false in Ed. exact (D (proj2 (rd_out _ _ R X)) Ed).
  Qed.
  Lemma pass_sound_ r p w : In r rules -> on_net (p_src p) -> on_net (p_dst p) -> known_proto p -> rule_says dir r p w -> hit dir t p /\ t_action t = [w].
  Proof.
    intros I Ns Nd K S. destruct (pass_rules_ r I) as (a & cs & cd & A & F & Vs & Vd & X & Y).
    apply (rule_facts_says _ _ _ _ _ _ _ _ _ p w F Dir Ns Nd) in S; [|intros c E; apply Vs, E|intros c E; apply Vd, E].
    destruct S as (S1 & S2 & S3 & <- & S5 & S6). split; [|exact A].
    destruct (entries_sound v t p (rd_protocol _ _ R) K (rd_ports _ _ R) S6) as [P Q].
    split; [|split; [exact S3|split; [exact P|exact Q]]]. unfold who. destruct Dir as [D|D]; rewrite D; cbn [String.eqb Ascii.eqb Bool.eqb].
    - destruct S1 as [[S1 S1']|[S1|[_ S1]]].
      + exfalso. destruct (proj2 (rd_in _ _ R D)) as [Z|Z]; [exact (X Z S1)|exact (Z (S1' D))].
      + left. destruct cs as [c|]; [|destruct S1]. exact (covered_incl _ _ _ (proj2 (Vs c eq_refl)) S1).
      + right. exact S1.
    - destruct S2 as [S2|S2]; [exfalso; exact (Y D S2)|]. destruct cd as [c|]; [|destruct S2]. exact (covered_incl _ _ _ (proj2 (Vd c eq_refl)) S2).
  Qed.
  Lemma pass_shared_ r : In r rules -> assoc "direction" r = Some (JStr dir) /\ in_network network r /\ assoc "priority" r = g_priority g.
  Proof. intros I. destruct (pass_rules_ r I) as (a & cs & cd & A & F & _). destruct F. auto. Qed.
  Lemma pass_complete_ p : on_net (p_src p) -> on_net (p_dst p) -> known_proto p ->
    (dir = "INGRESS" /\ t_source_address t = []) \/ (fst (p_src p) = v /\ fst (p_dst p) = v) ->
    ~ In (p_proto p) (foreign v) \/ ~ In (p_proto p) (t_protocol t) ->
    ~ (m6 = true /\ dir = "INGRESS" /\ t_source_address t = []) ->
    (dir = "INGRESS" -> t_source_address t <> [] -> gce_addresses v (t_source_address t) <> []) ->
    hit dir t p -> exists r w, In r rules /\ t_action t = [w] /\ rule_says dir r p w.
  Proof.
    intros Ns Nd K Fam Pr M Ad (W & T & P & Q).
    pose proof (entries_complete v t p (rd_protocol _ _ R) K (rd_ports _ _ R) Pr P Q) as Ex. fold es in Ex.
    assert (Cd : dir = "EGRESS" -> exists n, In n (gce_addresses v (t_destination_address t)) /\ covers n (p_dst p)).
    { intros D. unfold who in W. rewrite D in W. cbn [String.eqb Ascii.eqb Bool.eqb] in W.
      destruct Fam as [[X _]|[_ Fam]]; [rewrite D in X; discriminate X|].
      destruct (p_dst p) as [f x] eqn:Ep. cbn [fst] in Fam. subst f. apply gce_addresses_covered; [|exact W].
      intros n N. apply (rd_style _ _ R), in_or_app. right. exact N. }
    assert (In_a : forall w l, incl (gce_addresses w l) l) by (intros w l n N; apply gce_addresses_in in N; apply N).
    destruct (rd_valid _ _ R) as [Vs Vd].
    assert (Vs' := valid_incl _ _ (In_a v (t_source_address t)) Vs). assert (Vd' := valid_incl _ _ (In_a v (t_destination_address t)) Vd).
    destruct (convert_shape _ _ _ _ _ _ _ _ run Dir A1 A2 R) as [[_ E]|(a & d & A & Ka & F & E & S & D)].
    { exfalso. destruct E as [(E1 & E2 & E3)|[(E1 & E2)|[(E1 & E2)|E]]].
      - destruct Dir as [D|D]; [tauto|]. exact (proj2 (rd_out _ _ R D) E3).
      - destruct Dir as [D|D]; [exact (Ad D E1 E2)|]. exact (E1 (proj1 (rd_out _ _ R D))).
      - destruct Dir as [D|D]; [exact (E1 (proj1 (rd_in _ _ R D)))|]. destruct (Cd D) as (n & N & _). rewrite E2 in N. destruct N.
      - unfold es in Ex. rewrite E in Ex. destruct Ex as (e & [] & _). }
    fold es in F.
    assert (Says : forall cs cd r, rule_facts dir network g t a es cs cd r ->
      ((cs = None /\ (dir = "INGRESS" -> t_source_tag t = [])) \/ in_chunk cs (p_src p) \/ (dir = "INGRESS" /\ tag_hit (t_source_tag t) (p_src_tag p))) ->
      (cd = None \/ in_chunk cd (p_dst p)) -> (forall c, cs = Some c -> valid_list c) -> (forall c, cd = Some c -> valid_list c) -> rule_says dir r p a).
    { intros cs cd r Fr C1 C2 V1 V2. apply (rule_facts_says _ _ _ _ _ _ _ _ _ p a Fr Dir Ns Nd V1 V2). auto 10. }
    destruct Dir as [D1|D1].
    - pose proof (proj1 (rd_in _ _ R D1)) as Dn.
      unfold who in W. rewrite D1 in W. cbn [String.eqb Ascii.eqb Bool.eqb] in W.
      destruct (some (t_source_address t)) eqn:Es.
      + apply some_true in Es. pose proof (Ad D1 Es) as An. rewrite (proj2 (some_true _) An) in E.
        assert (X : exists n, In n (gce_addresses v (t_source_address t)) /\ (covers n (p_src p) \/ tag_hit (t_source_tag t) (p_src_tag p))).
        { destruct W as [W|W].
          - destruct Fam as [[_ X]|[Fam _]]; [contradiction|]. destruct (p_src p) as [f x] eqn:Ep. cbn [fst] in Fam. subst f.
            apply gce_addresses_covered in W; [destruct W as (n & N & C); eauto|]. intros n N. apply (rd_style _ _ R), in_or_app. left. exact N.
          - destruct (gce_addresses v (t_source_address t)) as [|n l]; [contradiction|]. exists n. split; [left; reflexivity|auto]. }
        destruct X as (n & N & X).
        destruct (proj2 (address_rules_spec "sourceRanges" _ d ltac:(discriminate)) n N) as (r & c & I & C1 & C0 & C2 & C3).
        exists r, a. rewrite E. split; [exact I|]. split; [exact A|]. apply (Says (Some c) None r (source_chunk _ _ _ _ _ _ _ _ _ F C2 C3)).
        * right. destruct X as [X|X]; [left; exists n; auto|right; auto].
        * left. reflexivity.
        * intros c' Z. injection Z as <-. exact (valid_incl _ _ C0 Vs').
        * discriminate.
      + apply some_false in Es. rewrite Es, Dn in E. cbn [some] in E. rewrite gce_addresses_nil in E. cbn [some] in E.
        exists d, a. rewrite E. split; [left; reflexivity|]. split; [exact A|]. apply (Says None None d F); [|auto|discriminate|discriminate].
        right. right. split; [exact D1|]. destruct W as [W|W]; [|exact W]. rewrite Es in W. apply covered_nil in W. destruct W.
    - destruct (Cd D1) as (n & N & C). rewrite (proj1 (rd_out _ _ R D1)), gce_addresses_nil in E. cbn [some] in E.
      assert (An : some (gce_addresses v (t_destination_address t)) = true) by (apply some_true; intros X; rewrite X in N; destruct N).
      rewrite An in E.
      destruct (proj2 (address_rules_spec "destinationRanges" _ d ltac:(discriminate)) n N) as (r & c & I & C1 & C0 & C2 & C3).
      exists r, a. rewrite E. split; [exact I|]. split; [exact A|]. apply (Says None (Some c) r (destination_chunk _ _ _ _ _ _ _ _ _ F C2 C3)).
      + left. split; [reflexivity|]. intros X. rewrite D1 in X. discriminate X.
      + right. exists n. auto.
      + discriminate.
      + intros c' Z. injection Z as <-. exact (valid_incl _ _ C0 Vd').
  Qed.
End OnePass.
