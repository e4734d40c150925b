(** Packet Filter: the rule of a term. *)
From Coq Require Import Lia ZifyBool ZifyNat.
From Verif Require Import SpecPf BaseFacts IPFacts PyStrFacts TextProofs PolicyProofs GenProofs GenProofs2 CiscoProofs CiscoProofs2 GceProofs GceDecide SrxBook PfText PfRule PfMatch PfFlags.
Local Open Scope string_scope.
Local Open Scope list_scope.
Local Open Scope Z_scope.

(** ** Addresses *)
Definition table_name (n : net) : string := ("<" ++ pf_short n ++ ">")%string.
Definition tables_right (tables : list (string * list string)) (D : string -> ipaddr -> Prop) (l : list net) : Prop :=
  forall n x, In n l -> on_net x -> (table_holds tables (table_name n) x <-> D (pf_short n) x).
Definition fam_ok (af : string) (v : ver) : Prop := af = "mixed" \/ v = if String.eqb af "inet6" then V6 else V4.
Lemma table_word n : pf_word (nptoken n) -> pf_word (table_name n).
Proof.
  intros (_ & F). unfold table_name, pf_short. destruct (slice_to_prefix (nptoken n) 31) as (q & E). rewrite E, forall_char_app in F. apply andb_true_iff in F. destruct F as (F & _).
  split; [discriminate|]. rewrite !forall_char_app, F. reflexivity.
Qed.
Lemma of_family_in af l n : In n (pf_of_family af l) <-> In n l /\ fam_ok af (nver n).
Proof.
  unfold pf_of_family, fam_ok. destruct (String.eqb af "mixed") eqn:E.
  - apply String.eqb_eq in E. split; [intros I; auto|intros (I & _); exact I].
  - rewrite filter_In. apply String.eqb_neq in E. split.
    + intros (I & V). apply ver_eqb_eq in V. auto.
    + intros (I & [V|V]); [contradiction|]. split; [exact I|]. apply ver_eqb_eq, V.
Qed.
Lemma host_table tables x n : host_says tables x (table_name n) <-> table_holds tables (table_name n) x.
Proof.
  unfold host_says. split; [|intros H; right; left; split; [unfold table_name; cbn [append starts_with String.prefix]; unfold starts_with; cbn [String.prefix]; destruct (pf_short n ++ ">")%string; reflexivity|exact H]]. intros [E|[(_ & H)|(m & E & _)]]; [discriminate E|exact H|discriminate E].
Qed.
Lemma side_spec (D : string -> ipaddr -> Prop) af inc :
  (forall n, In n inc -> pf_word (nptoken n)) -> pf_side_settled D inc ->
  match pf_side af inc [] with
  | Some s => exists ws, seg s ("{" :: ws ++ ["}"]) /\ ~ In "}" ws /\
      forall tables x, tables_right tables D inc -> on_net x -> fam_ok af (fst x) -> ((exists w, In w ws /\ host_says tables x w) <-> side_matches inc [] x)
  | None => forall x, fam_ok af (fst x) -> ~ side_matches inc [] x
  end.
Proof.
  intros Wd S. unfold pf_side. cbn [map]. destruct (some inc) eqn:E.
  - assert (Ni : inc <> []) by (intros ->; discriminate E).
    assert (F : forall m x, In m inc -> covers m x -> fam_ok af (fst x) -> In m (pf_of_family af inc)) by (intros m x I C V; apply of_family_in; split; [exact I|destruct C as (C & _); rewrite C; exact V]).
    destruct (some (pf_of_family af inc)) eqn:G.
    + rewrite app_nil_r. set (ws := sorted_set (map (fun n => ("<" ++ pf_short n ++ ">")%string) (pf_of_family af inc))).
      assert (I : forall w, In w ws <-> exists n, In n (pf_of_family af inc) /\ w = table_name n).
      { intros w. unfold ws. rewrite sorted_set_in, in_map_iff. split; intros (n & A & B); exists n; [split; [exact B|symmetry; exact A]|split; [symmetry; exact B|exact A]]. }
      assert (P : forall w, In w ws -> pf_word w) by (intros w J; apply I in J; destruct J as (n & J & ->); apply table_word, Wd; apply of_family_in in J; apply J).
      exists ws. split; [apply seg_braces, seg_commas, P|]. split; [intros J; exact (pf_not_brace _ (P _ J) eq_refl)|].
      intros tables x T On V. unfold side_matches. split.
      * intros (w & J & H). split; [|intros (m & [] & _)]. right. apply I in J. destruct J as (n & J & ->). apply host_table in H. apply of_family_in in J. destruct J as (J & _).
        apply (T n x J On) in H. apply (S n x J) in H. destruct H as (m & Im & _ & C). exists m. auto.
      * intros ([X|(m & Im & C)] & _); [contradiction|]. exists (table_name m). split; [apply I; exists m; split; [apply (F m x); assumption|reflexivity]|].
        apply host_table, (T m x Im On), (S m x Im). exists m. auto.
    + intros x V ([X|(m & Im & C)] & _); [contradiction|]. specialize (F m x Im C V). destruct (pf_of_family af inc); [destruct F|discriminate G].
  - assert (inc = []) by (destruct inc; [reflexivity|discriminate E]). subst inc. exists ["any"]. split; [|split].
    + change (join ", " (sorted_set (["any"] ++ []))) with "any". apply (seg_braces "any" ["any"]), seg_word, lit. reflexivity.
    + intros [X|[]]. discriminate X.
    + intros tables x _ _ _. split; [intros _; split; [left; reflexivity|intros (m & [] & _)]|]. intros _. exists "any". split; [left; reflexivity|left; reflexivity].
Qed.

(** ** Families and directions *)
Lemma family_spec opts af : pf_family opts = Ok af -> In af pf_families /\ forall v, family_wanted opts v <-> fam_ok af v.
Proof.
  unfold pf_family, family_wanted, fam_ok, pf_families. cbn [filter]. intros H.
  assert (M : forall f, str_in f opts = false -> ~ In f opts) by (intros f E I; apply str_in_spec in I; congruence).
  assert (P : forall f, str_in f opts = true -> In f opts) by (intros f E; apply str_in_spec, E).
  destruct (str_in "inet" opts) eqn:E1, (str_in "inet6" opts) eqn:E2, (str_in "mixed" opts) eqn:E3; try discriminate H; apply ok_inj in H; subst af;
    (split; [cbn; auto|]); intros v; try specialize (M "mixed" E3); try specialize (P "mixed" E3);
    (split; [intros [X|X]; [contradiction|right; exact X]|intros [X|X]; [discriminate X|right; exact X]]) || (split; intros _; left; [reflexivity|exact P]).
Qed.

(** ** What is left of matching *)
Lemma pf_matches filters ts t p :
  check_tokens "packetfilter" pf_tokens filters = Ok tt -> In (["packetfilter"], ts) filters -> In t ts -> meant_for "packetfilter" t -> pf_term_ok t -> p_platform p = "packetfilter" ->
  term_matches t p <-> side_matches (t_source_address t) [] (p_src p) /\ side_matches (t_destination_address t) [] (p_dst p) /\
    any_or (t_protocol t) (eq (p_proto p)) /\ ports_match (t_source_port t) (p_sport p) /\ ports_match (t_destination_port t) (p_dport p) /\
    (forall o, In o (t_option t) -> p_option p o) /\ any_or (t_icmp_type t) (eq (p_icmp_type p)) /\
    opt_eq (t_source_interface t) (p_src_if p) /\ opt_eq (t_destination_interface t) (p_dst_if p).
Proof.
  intros H I1 I3 M K Pl. destruct (fo_exclude t K) as (X1 & X2). destruct (fo_warned t K) as (E1 & E2 & E3 & E4).
  pose proof (unsupported_not_set "packetfilter" pf_tokens filters _ ts t H I1 (or_introl eq_refl) I3 M) as U.
  assert (N : forall s, str_in s (supported pf_tokens) = false -> ~ In s (supported pf_tokens)) by (intros s E X; apply str_in_spec in X; congruence).
  destruct U as (U1 & U2 & _ & _ & _ & _ & U3 & _ & _ & _ & U4 & _ & U5 & U6 & U7 & U8 & U9 & U10 & U11 & U12 & U13 & U14 & U15 & U16 & U17 & U18 & U19 & U20 & U21 & U22 & U23 & U24 & U25).
  specialize (U1 (N "address" eq_refl)). specialize (U2 (N "address_exclude" eq_refl)). specialize (U3 (N "port" eq_refl)). specialize (U4 (N "protocol_except" eq_refl)).
  specialize (U5 (N "source_prefix" eq_refl)). specialize (U6 (N "source_prefix_except" eq_refl)). specialize (U7 (N "destination_prefix" eq_refl)). specialize (U8 (N "destination_prefix_except" eq_refl)).
  specialize (U9 (N "precedence" eq_refl)). specialize (U10 (N "forwarding_class" eq_refl)). specialize (U11 (N "forwarding_class_except" eq_refl)). specialize (U13 (N "icmp_code" eq_refl)).
  specialize (U14 (N "ether_type" eq_refl)). specialize (U15 (N "traffic_type" eq_refl)). specialize (U16 (N "dscp_match" eq_refl)). specialize (U17 (N "dscp_except" eq_refl)).
  specialize (U18 (N "source_zone" eq_refl)). specialize (U19 (N "destination_zone" eq_refl)). specialize (U20 (N "ttl" eq_refl)).
  specialize (U21 (N "fragment_offset" eq_refl)). specialize (U22 (N "hop_limit" eq_refl)). specialize (U23 (N "packet_length" eq_refl)).
  assert (T : forall o, o = None \/ o = Some "" -> forall n, text_range o n) by (intros o [->| ->] n; [exact Logic.I|left; reflexivity]).
  assert (U20' : t_ttl t = None) by (destruct U20 as [X|X]; [exact X|contradiction]).
  unfold term_matches, addresses_match, protocols_match, all_ports_match, prefixes_match, options_match, numbers_match, icmp_match, place_matches, link_matches.
  rewrite U1, U2, U3, U4, U5, U6, U7, U8, U9, U10, U11, U13, U14, U15, U16, U17, U18, U19, U20', X1, X2, E1, E2, E3, Pl. clear U12 U24 U25. split.
  - intros ((_ & A1 & A2) & (A3 & _) & (_ & A5 & A4) & _ & (_ & A6 & _) & _ & (A7 & _) & _ & (_ & _ & _ & _ & A8 & A9 & _)). auto 15.
  - intros (A1 & A2 & A3 & A4 & A5 & A6 & A7 & A8 & A9).
    assert (Ny : forall (P : string -> Prop), any_or [] P) by (left; reflexivity).
    destruct M as (M1 & M2).
    split; [split; [left; auto|auto]|]. split; [split; [exact A3|apply none_nil]|]. split; [split; [left; left; reflexivity|split; [exact A4|exact A5]]|].
    split. { split; [apply Ny|]. split; [apply none_nil|]. split; [apply Ny|]. split; [apply none_nil|]. auto. }
    split. { split; [apply Ny|]. split; [exact A6|]. split; [apply Ny|apply none_nil]. }
    split. { split; [apply (T _ U21)|]. split; [apply (T _ U22)|]. split; [apply (T _ U23)|exact Logic.I]. }
    split. { split; [exact A7|left; reflexivity]. }
    split. { split; [destruct M1 as [->|I]; [apply Ny|right; eexists; split; [exact I|reflexivity]]|]. split; [intros a I E; subst a; exact (M2 I)|]. split; apply Ny. }
    split; [apply Ny|]. split; [apply Ny|]. split; [apply Ny|]. split; [apply none_nil|]. split; [exact A8|]. split; [exact A9|exact Logic.I].
Qed.

(** ** The lines of a term *)
Definition reads (ls : list string) (rs : list pf_rule) : Prop :=
  (forall l, In l ls -> goes_on l = false) /\
  forall rest tables rules, read_lines rest = Some (tables, rules) -> read_lines (map pf_words ls ++ rest) = Some (tables, rs ++ rules).
Lemma reads_nil : reads [] [].
Proof. split; [intros l []|]. intros rest tables rules H. exact H. Qed.
Lemma reads_app a b x y : reads a x -> reads b y -> reads (a ++ b) (x ++ y).
Proof.
  intros (A1 & A2) (B1 & B2). split; [intros l I; apply in_app_or in I; destruct I; auto|]. intros rest tables rules H. rewrite map_app, <- !app_assoc. apply A2, B2, H.
Qed.
Lemma reads_concat l xs : Forall2 reads l xs -> reads (concat l) (concat xs).
Proof. induction 1; cbn [concat]; [apply reads_nil|apply reads_app; assumption]. Qed.
Lemma reads_blank l : goes_on l = false -> pf_words l = [] -> reads [l] [].
Proof. intros G E. split; [intros x [<-|[]]; exact G|]. intros rest tables rules H. cbn [map app read_lines]. rewrite H, E. reflexivity. Qed.
Lemma reads_blanks ls : (forall l, In l ls -> goes_on l = false /\ pf_words l = []) -> reads ls [].
Proof.
  induction ls as [|l ls IH]; intros H; [apply reads_nil|]. apply (reads_app [l] ls [] []); [apply reads_blank; apply (H l); left; reflexivity|apply IH; intros x I; apply H; right; exact I].
Qed.
Lemma reads_comment s : has_char backslash s = false -> reads [("# " ++ s)%string] [].
Proof.
  intros H. apply reads_blank; [|exact (comment_words (" " ++ s)%string)]. apply closed_end. change ("# " ++ s)%string with (String "#" (String " " s)). cbn [has_char]. rewrite H. reflexivity.
Qed.
Lemma reads_rule s r log : seg s (rule_words r log) -> rule_good r -> reads [s] [r].
Proof.
  intros S G. split; [intros x [<-|[]]; apply closed_end, (sg_closed _ _ S)|]. intros rest tables rules H. cbn [map app read_lines]. rewrite H, (seg_pf _ _ S).
  pose proof (read_rule_words r log G) as R.
  assert (F : exists w ws, rule_words r log = w :: ws /\ String.eqb w "table" = false).
  { unfold rule_words. destruct (rg_action r G) as [<-|[<-|[<-|[]]]]; eexists; eexists; (split; [reflexivity|reflexivity]). }
  destruct F as (w & ws & E & Nt). rewrite E in *. rewrite Nt, R. reflexivity.
Qed.
Lemma comments_reads cs n : closed_comments cs ->
  reads (match wrap_words cs n lf with c :: _ => if is_empty c then [] else map (fun l => ("# " ++ l)%string) (wrap_words cs n lf) | [] => [] end) [].
Proof.
  intros H. assert (A : reads (map (fun l => ("# " ++ l)%string) (wrap_words cs n lf)) []).
  { apply reads_blanks. intros l I. apply in_map_iff in I. destruct I as (s & <- & I). pose proof (wrap_closed backslash n cs s eq_refl H I) as C.
    destruct (reads_comment s C) as (G & _). split; [apply G; left; reflexivity|exact (comment_words (" " ++ s)%string)]. }
  destruct (wrap_words cs n lf) as [|c l]; [apply reads_nil|]. destruct (is_empty c); [apply reads_nil|exact A].
Qed.

(** ** The rule of a term *)
Record entry_for (stateful : bool) (af dir n : string) (t : term) (e : pf_entry) : Prop := {
  ef_fields : pe_stateful e = stateful /\ pe_af e = af /\ pe_term e = set_name n t;
  ef_place : (pe_dir e, pe_if e) = if given (t_destination_interface t) then ("out", t_destination_interface t)
                                   else if given (t_source_interface t) then ("in", t_source_interface t) else (dir, None);
  ef_one : given (t_destination_interface t) && given (t_source_interface t) = false;
  ef_protocol : term_protocols ["ipip"] (t_protocol t) = Ok (pe_protocol e) }.
Lemma meant_test t : ((some (t_platform t) && negb (str_in "packetfilter" (t_platform t))) || (some (t_platform_exclude t) && str_in "packetfilter" (t_platform_exclude t))) = false <-> meant_for "packetfilter" t.
Proof.
  unfold meant_for. rewrite orb_false_iff. split.
  - intros (A & B). split.
    + destruct (t_platform t) as [|x l]; [left; reflexivity|right]. cbn [some andb] in A. apply negb_false_iff, str_in_spec in A. exact A.
    + intros I. destruct (t_platform_exclude t) as [|x l]; [destruct I|]. cbn [some andb] in B. apply str_in_spec in I. congruence.
  - intros (A & B). split.
    + destruct A as [->|A]; [reflexivity|]. apply str_in_spec in A. rewrite A. apply andb_false_r.
    + destruct (str_in "packetfilter" (t_platform_exclude t)) eqn:E; [apply str_in_spec in E; contradiction|apply andb_false_r].
Qed.
Lemma given_some o : (forall i, o = Some i -> pf_word i) -> given o = match o with Some _ => true | None => false end.
Proof. intros H. destruct o as [i|]; [|reflexivity]. destruct (H i eq_refl) as (N & _). destruct i; [congruence|reflexivity]. Qed.
Lemma place_mean opts t dir ifc d p : In d ["in"; "out"] ->
  (forall i, t_source_interface t = Some i \/ t_destination_interface t = Some i -> pf_word i) ->
  given (t_destination_interface t) && given (t_source_interface t) = false ->
  (dir, ifc) = (if given (t_destination_interface t) then ("out", t_destination_interface t)
                else if given (t_source_interface t) then ("in", t_source_interface t) else (pf_direction opts, None)) ->
  In dir [""; "in"; "out"] /\ (forall i, ifc = Some i -> pf_word i) /\
  (((forall w, opt_if (negb (is_empty dir)) dir = Some w -> w = d) /\ (forall i, ifc = Some i -> i = if String.eqb d "in" then p_src_if p else p_dst_if p)) <->
   direction_wanted opts t d /\ opt_eq (t_source_interface t) (p_src_if p) /\ opt_eq (t_destination_interface t) (p_dst_if p)).
Proof.
  intros Dd H One E. rewrite (given_some (t_destination_interface t)), (given_some (t_source_interface t)) in * by (intros i X; apply H; auto).
  unfold direction_wanted. destruct (t_destination_interface t) as [j|], (t_source_interface t) as [i|]; try discriminate One; injection E as -> ->.
  - split; [cbn; auto|]. split; [intros x X; apply H; right; exact X|]. cbn [is_empty negb opt_if opt_eq]. split.
    + intros (A & B). pose proof (A "out" eq_refl) as <-. split; [reflexivity|]. split; [exact Logic.I|]. symmetry. exact (B j eq_refl).
    + intros (-> & _ & B). split; [intros w X; injection X as <-; reflexivity|]. intros x X. injection X as <-. symmetry. exact B.
  - split; [cbn; auto|]. split; [intros x X; apply H; left; exact X|]. cbn [is_empty negb opt_if opt_eq]. split.
    + intros (A & B). pose proof (A "in" eq_refl) as <-. split; [reflexivity|]. split; [|exact Logic.I]. symmetry. exact (B i eq_refl).
    + intros (-> & B & _). split; [intros w X; injection X as <-; reflexivity|]. intros x X. injection X as <-. symmetry. exact B.
  - unfold pf_direction. destruct (str_in "in" opts); [|destruct (str_in "out" opts)]; (split; [cbn; auto|]); (split; [intros x X; discriminate X|]); cbn [is_empty negb opt_if opt_eq]; split.
    + intros (A & _). split; [symmetry; apply A; reflexivity|split; exact Logic.I].
    + intros (-> & _). split; [intros w X; injection X as <-; reflexivity|intros i X; discriminate X].
    + intros (A & _). split; [symmetry; apply A; reflexivity|split; exact Logic.I].
    + intros (-> & _). split; [intros w X; injection X as <-; reflexivity|intros i X; discriminate X].
    + intros _. split; [exact Logic.I|split; exact Logic.I].
    + intros _. split; [intros w X; discriminate X|intros i X; discriminate X].
Qed.
Lemma family_mean af v : In af pf_families -> (forall f, opt_if (negb (String.eqb af "mixed")) af = Some f -> v = if String.eqb f "inet6" then V6 else V4) <-> fam_ok af v.
Proof.
  intros I. unfold fam_ok. destruct I as [<-|[<-|[<-|[]]]]; cbn [opt_if negb String.eqb Ascii.eqb Bool.eqb]; split.
  - intros H. right. exact (H _ eq_refl).
  - intros [X|X] f E; [discriminate X|]. injection E as <-. exact X.
  - intros H. right. exact (H _ eq_refl).
  - intros [X|X] f E; [discriminate X|]. injection E as <-. exact X.
  - intros _. left. reflexivity.
  - intros _ f E. discriminate E.
Qed.
Lemma verdict_action a action o : a <> "next" -> assoc a pf_actions = Some action -> (action = o <-> pf_verdict a = Some o).
Proof.
  intros N E. unfold pf_actions in E. cbn [assoc] in E. unfold pf_verdict. destruct (String.eqb a "accept"); [|destruct (String.eqb a "deny"); [|destruct (String.eqb a "reject"); [|destruct (String.eqb a "next") eqn:X; [apply String.eqb_eq in X; contradiction|discriminate E]]]];
    injection E as <-; (split; [intros <-; reflexivity|intros X; injection X as X; exact X]).
Qed.
Lemma term_block filters ts stateful opts dir af n t e lines D : check_tokens "packetfilter" pf_tokens filters = Ok tt -> In (["packetfilter"], ts) filters -> In t ts ->
  meant_for "packetfilter" t -> pf_term_ok t -> pf_word n -> pf_family opts = Ok af -> dir = pf_direction opts ->
  (forall l, In l [t_source_address t; t_destination_address t] -> (forall m, In m l -> pf_word (nptoken m)) /\ pf_side_settled D l) ->
  entry_for stateful af dir n t e -> pf_term e = Ok lines ->
  exists rs, reads lines rs /\ (forall r, In r rs -> pr_quick r = true) /\
    forall tables p d o, tables_right tables D (t_source_address t) -> tables_right tables D (t_destination_address t) -> pf_traffic p -> In d ["in"; "out"] -> opens p \/ stateful = false ->
      (exists r, In r rs /\ rule_applies tables d p r /\ pr_action r = o) <->
      (fam_ok af (fst (p_src p)) /\ direction_wanted opts t d /\ term_matches t p /\ exists a more, t_action t = a :: more /\ pf_verdict a = Some o).
Proof.
  intros Ck If It M K Wn Fam Edir Sd [(Ef1 & Ef2 & Ef3) Epl Eone Epr] H.
  destruct (family_spec _ _ Fam) as (Iaf & _). destruct (fo_action t K) as (a & more & Ea & Nx). destruct (fo_exclude t K) as (X1 & X2).
  assert (Kn : forall q, In q (t_protocol t) -> In q pf_known6) by (intros q I; apply known_in, (fo_protocol t K), I).
  destruct (proto_vals _ _ Epr Kn) as (_ & Pt & Pl).
  destruct (sub_tokens_listed "packetfilter" pf_tokens _ _ _ t option_names Ck If (or_introl eq_refl) It M) as (So & _); [cbn; intuition discriminate|]. specialize (So eq_refl).
  unfold pf_term in H. rewrite Ef3, Pt in H. cbn [set_name t_platform t_platform_exclude t_action t_source_address t_source_address_exclude t_destination_address t_destination_address_exclude t_option t_comment t_name] in H.
  rewrite (proj2 (meant_test t) M), Ea in H. destruct (assoc a pf_actions) as [action|] eqn:Eact; [|discriminate H]. rewrite Ef2, X1, X2 in H.
  destruct (Sd (t_source_address t) (or_introl eq_refl)) as (S1 & S2). destruct (Sd (t_destination_address t) (or_intror (or_introl eq_refl))) as (D1 & D2).
  pose proof (side_spec D af (t_source_address t) S1 S2) as Sp. pose proof (side_spec D af (t_destination_address t) D1 D2) as Dp.
  assert (Mt : forall p, pf_traffic p -> term_matches t p <-> _) by (intros p Tp; exact (pf_matches filters ts t p Ck If It M K (pt_platform p Tp))).
  assert (No : lines = [] -> (forall p, pf_traffic p -> fam_ok af (fst (p_src p)) -> ~ term_matches t p) ->
    exists rs, reads lines rs /\ (forall r, In r rs -> pr_quick r = true) /\
    forall tables p d o, tables_right tables D (t_source_address t) -> tables_right tables D (t_destination_address t) -> pf_traffic p -> In d ["in"; "out"] -> opens p \/ stateful = false ->
      (exists r, In r rs /\ rule_applies tables d p r /\ pr_action r = o) <->
      (fam_ok af (fst (p_src p)) /\ direction_wanted opts t d /\ term_matches t p /\ exists a more, t_action t = a :: more /\ pf_verdict a = Some o)).
  { intros -> Nm. exists []. split; [apply reads_nil|]. split; [intros r []|]. intros tables p d o _ _ Tp _ _. split; [intros (r & [] & _)|intros (F & _ & T & _); destruct (Nm p Tp F T)]. }
  destruct (pf_side af (t_source_address t) []) as [src|]; [|apply ok_inj in H; apply No; [auto|]; intros p Tp F T; apply (Mt p Tp) in T; exact (Sp (p_src p) F (proj1 T))].
  destruct (pf_side af (t_destination_address t) []) as [dst|]; [|apply ok_inj in H; apply No; [auto|]; intros p Tp F T; apply (Mt p Tp) in T; rewrite (pt_family p Tp) in F; exact (Dp (p_dst p) F (proj1 (proj2 T)))].
  destruct Sp as (srcs & Ss & Sn & Sm). destruct Dp as (dsts & Ds & Dn & Dm). clear No.
  apply bind_ok in H. destruct H as (types & Ety & H). apply bind_ok in H. destruct H as (fl & Efl & H). apply bind_ok in H. destruct H as (proto & Epo & H). apply ok_inj in H.
  change (pf_types (set_name n t) (t_protocol t)) with (pf_types t (t_protocol t)) in Ety.
  destruct (place_mean opts t (pe_dir e) (pe_if e) "in" (mkPacket (V4, 0) (V4, 0) "" 0 0 "" 0 (fun _ => False) (fun _ => False) (fun _ => False) (fun _ => False) (fun _ => False) "" "" 0 0 0 0 "" "" "" "" "" "" "" "" "")
     (or_introl eq_refl) (fo_interface t K) Eone ltac:(rewrite Epl, Edir; reflexivity)) as (Pd & Pi & _).
  set (protos := map pfp (t_protocol t)).
  assert (G : line_good e a action src dst proto fl types srcs dsts protos).
  { constructor.
    - exact Eact.
    - exact Pd.
    - exact Pi.
    - rewrite Ef2. exact Iaf.
    - auto.
    - auto.
    - rewrite Pt. intros S. rewrite S, Pl in Epo. apply ok_inj in Epo. subst proto. apply proto_seg, Kn.
    - rewrite Ef3. cbn [set_name t_source_port t_destination_port]. exact (fo_ports t K).
    - apply (flags_word _ _ _ _ So (fo_option t K) Efl).
    - exact (types_nonneg _ _ _ Ety). }
  set (r := rule_of e a action srcs dsts protos fl types).
  exists [r]. split; [|split].
  - rewrite <- H. apply (reads_app ["" ; ("# term " ++ n)%string] _ [] [r]); [|apply (reads_app _ [_] [] [r])].
    + apply (reads_app [""] [_] [] []); [apply reads_blank; reflexivity|]. apply (reads_comment ("term " ++ n)%string). rewrite has_char_app.
      destruct (pf_chars _ (proj2 Wn)) as (_ & B & _). rewrite B. reflexivity.
    + exact (comments_reads (t_comment t) 80 (fo_comments t K)).
    + exact (reads_rule _ _ _ (line_seg _ _ _ _ _ _ _ _ _ _ _ G) (rule_read _ _ _ _ _ _ _ _ _ _ _ G)).
  - intros x [<-|[]]. unfold r, rule_of. cbn [pr_quick]. apply negb_true_iff, String.eqb_neq, Nx.
  - intros tables p d o T1 T2 Tp Id Op.
    destruct (place_mean opts t (pe_dir e) (pe_if e) d p Id (fo_interface t K) Eone ltac:(rewrite Epl, Edir; reflexivity)) as (_ & _ & Pm).
    pose proof (family_mean af (fst (p_src p)) Iaf) as Fm. rewrite (Mt p Tp).
    assert (Pa : pr_action r = o <-> exists a more, t_action t = a :: more /\ pf_verdict a = Some o).
    { change (pr_action r) with action. rewrite (verdict_action a action o Nx Eact), Ea. split; [intros V; exists a, more; auto|]. intros (a' & m' & E & V). injection E as <- <-. exact V. }
    assert (Fl : any_or (t_protocol t) (eq (p_proto p)) -> ((forall w, effective_flags r = Some w -> p_proto p = "tcp" -> flags_say p w) <-> forall o, In o (t_option t) -> p_option p o)).
    { apply (flags_mean r stateful (t_protocol t) (t_option t) fl p So (fo_option t K)); [rewrite <- Ef1; exact Efl|reflexivity| |exact Tp|exact Op].
      intros X. unfold r, rule_of. cbn [pr_state]. rewrite Ef1, X. reflexivity. }
    pose proof (protos_mean (t_protocol t) p Kn) as Pr. pose proof (types_mean t (t_protocol t) types p Ety) as Ty.
    pose proof (ports_mean (t_source_port t) (p_sport p) (fun r I => fo_ports t K r (in_or_app _ _ r (or_introl I)))) as Po1.
    pose proof (ports_mean (t_destination_port t) (p_dport p) (fun r I => fo_ports t K r (in_or_app _ _ r (or_intror I)))) as Po2.
    assert (On1 : on_net (p_src p)) by exact (pt_src p Tp). assert (On2 : on_net (p_dst p)) by exact (pt_dst p Tp).
    specialize (Sm tables (p_src p) T1 On1). specialize (Dm tables (p_dst p) T2 On2).
    assert (Ra : rule_applies tables d p r <-> ((forall w, opt_if (negb (is_empty (pe_dir e))) (pe_dir e) = Some w -> w = d) /\ (forall i, pe_if e = Some i -> i = if String.eqb d "in" then p_src_if p else p_dst_if p)) /\
      (forall f, opt_if (negb (String.eqb af "mixed")) af = Some f -> fst (p_src p) = if String.eqb f "inet6" then V6 else V4) /\
      some_says (opt_if (some (t_protocol t)) (map pfp (t_protocol t))) (proto_says p) /\ (exists w, In w srcs /\ host_says tables (p_src p) w) /\
      some_says (opt_if (some (t_source_port t)) (first_seen [] (map pf_port (t_source_port t)))) (port_says (p_sport p)) /\ (exists w, In w dsts /\ host_says tables (p_dst p) w) /\
      some_says (opt_if (some (t_destination_port t)) (first_seen [] (map pf_port (t_destination_port t)))) (port_says (p_dport p)) /\
      (forall w, effective_flags r = Some w -> p_proto p = "tcp" -> flags_say p w) /\
      (some_says (types_of "icmp" (t_protocol t) types) (type_in icmp_type4 p) /\ some_says (types_of "icmpv6" (t_protocol t) types) (type_in icmp_type6 p))).
    { unfold rule_applies, r, rule_of. cbn [pr_dir pr_if pr_family pr_proto pr_src pr_sport pr_dst pr_dport pr_types pr_types6]. rewrite Pt, Ef2, Ef3. cbn [set_name t_source_port t_destination_port].
      split; [intros (A & B & C); split; [split; assumption|exact C]|intros ((A & B) & C); split; [exact A|split; [exact B|exact C]]]. }
    rewrite Pm, Fm, Pr, Po1, Po2, Ty in Ra. clear Pm Fm Pr Po1 Po2 Ty.
    split.
    + intros (x & [<-|[]] & R & A). apply Ra in R. destruct R as ((R0 & R0' & R0'') & R1 & R2 & R3 & R4 & R5 & R6 & R7 & R8).
      apply Sm in R3; [|exact R1]. apply Dm in R5; [|rewrite <- (pt_family p Tp); exact R1]. pose proof (proj1 (Fl R2) R7) as R7x. apply Pa in A. clear - R0 R0' R0'' R1 R2 R3 R4 R5 R6 R7x R8 A. auto 20.
    + intros (R1 & R0 & (R3 & R5 & R2 & R4 & R6 & R7 & R8 & R0' & R0'') & A). exists r. split; [left; reflexivity|]. split; [|apply Pa, A]. apply Ra.
      split; [auto|]. split; [exact R1|]. split; [exact R2|]. split; [apply Sm; assumption|]. split; [exact R4|].
      split; [apply Dm; [rewrite <- (pt_family p Tp); exact R1|exact R5]|]. split; [exact R6|]. split; [exact (proj2 (Fl R2) R7)|exact R8].
Qed.
