(** The rules of an nftables term, over all families of the header. *)
From Coq Require Import Lia ZifyBool ZifyNat.
From Verif Require Import SpecNft BaseFacts PyStrFacts TextProofs CiscoProofs CiscoProofs2 CiscoTerm CiscoAcl CiscoEst GenProofs GenProofs2 IPFacts ExcludeProofs NftText NftTerm NftRule.
Local Open Scope string_scope.
Local Open Scope list_scope.
Local Open Scope Z_scope.

Lemma Forall2_in_l {A B} (R : A -> B -> Prop) l m : Forall2 R l m -> forall x, In x l -> exists y, In y m /\ R x y.
Proof. induction 1 as [|x y l m H F IH]; [intros _ []|]. intros z [<-|I]; [exists y; cbn; auto|]. destruct (IH z I) as (w & J & K). exists w. cbn. auto. Qed.
Lemma Forall2_in_r {A B} (R : A -> B -> Prop) l m : Forall2 R l m -> forall y, In y m -> exists x, In x l /\ R x y.
Proof. induction 1 as [|x y l m H F IH]; [intros _ []|]. intros z [<-|I]; [exists x; cbn; auto|]. destruct (IH z I) as (w & J & K). exists w. cbn. auto. Qed.
Definition comment_good (comment : string) : Prop := comment = "" \/ exists l, comment = ("comment " ++ truncate_words (Lines l) 126)%string.
Lemma stmt_line v s c : In v nft_verdicts -> stmt v s c -> rule_line s c (Verdict v).
Proof. intros I (b & -> & P). apply line_of; [exact P|apply verdict_ending, I]. Qed.
Lemma stmt_comment v s c comment : In v nft_verdicts -> comment_good comment -> stmt v s c -> rule_line (if nonempty comment then (s ++ nft_add comment)%string else s) c (Verdict v).
Proof.
  intros I [->|(l & ->)] S; [apply stmt_line; assumption|]. destruct S as (b & -> & P).
  change (nonempty ("comment " ++ truncate_words (Lines l) 126)%string) with true. cbv iota.
  change (nft_add ("comment " ++ truncate_words (Lines l) 126)%string) with (" comment " ++ truncate_words (Lines l) 126)%string.
  rewrite !str_app_assoc. change (" " ++ v ++ " comment " ++ truncate_words (Lines l) 126)%string with (String " " (v ++ " comment " ++ truncate_words (Lines l) 126))%string.
  apply line_of; [exact P|apply comment_ending, I].
Qed.
Lemma stmt_interface v i ci s c : piece i ci -> i <> "" -> stmt v s c -> stmt v (i ++ nft_add s)%string (fun p => ci p /\ c p).
Proof.
  intros P N S. rewrite (add_nonempty s) by exact (stmt_nonempty _ _ _ S). destruct S as (b & -> & Pb). exists (i ++ " " ++ b)%string. split; [rewrite !str_app_assoc; reflexivity|].
  apply piece_cat; assumption.
Qed.
Lemma group_exact v interface addrs pps options verdict comment (ci ca co : packet -> Prop) cs : In verdict nft_verdicts ->
  (addrs = [] /\ (forall p, ca p <-> True) \/ exists a, addrs = [a] /\ marked v a /\ piece a ca) ->
  Forall2 piece pps cs -> (v = V6 -> forall s, In s pps -> starts_with "icmp type" s = false) -> piece options co ->
  piece interface ci -> (interface = "" -> forall p, ci p) -> (interface <> "" -> (List.length cs <= 1)%nat) -> comment_good comment ->
  exists lines cs', group_expressions interface addrs pps options verdict comment = Ok lines /\
    Forall2 (fun s c => rule_line s c (Verdict verdict)) lines cs' /\
    (forall d p, In d cs' -> d p -> ci p /\ exists d', In d' (product ca co cs) /\ d' p) /\
    (forall d p, In d (product ca co cs) -> d p -> ci p -> exists d', In d' cs' /\ d' p).
Proof.
  intros Iv A P M O Pi Ei Li Cg. destruct (group_core v addrs pps options verdict ca co cs Iv A P M O) as (cs' & S & L & F1 & F2).
  unfold group_expressions. cbv zeta. cbv zeta in S. revert S. match goal with |- Forall2 _ ?x _ -> _ => set (st := x) end. intros S.
  assert (Lp : List.length (product ca co cs) <> 0%nat) by (destruct cs; cbn; lia).
  destruct S as [|s c st' cs' S1 S2]; [cbn in L; lia|].
  assert (T : Forall2 (fun s c => rule_line s c (Verdict verdict)) st' cs').
  { clear - S2 Iv. induction S2; constructor; [apply stmt_line; assumption|assumption]. }
  destruct (nonempty interface || nonempty comment) eqn:E.
  - destruct interface as [|x interface].
    + exists ((if nonempty comment then (s ++ nft_add comment)%string else s) :: st'), (c :: cs'). split; [reflexivity|]. split.
      { constructor; [|exact T]. apply stmt_comment; assumption. }
      split; [intros d p I H; split; [apply Ei; reflexivity|exact (F1 d p I H)]|]. intros d p I H _. exact (F2 d p I H).
    + assert (Ne : String x interface <> "") by discriminate. specialize (Li Ne).
      assert (L1 : (List.length (product ca co cs) <= 1)%nat) by (destruct cs as [|d1 [|d2 cs]]; cbn in *; lia).
      cbn [List.length] in L. assert (E2 : cs' = []) by (destruct cs'; [reflexivity|cbn in L; lia]). subst cs'. inversion T; subst.
      pose proof (stmt_interface verdict _ ci s c Pi Ne S1) as S3.
      eexists [_], [fun p => ci p /\ c p]. split; [reflexivity|]. split.
      { constructor; [|constructor]. exact (stmt_comment _ _ _ _ Iv Cg S3). }
      split.
      * intros d p [<-|[]] (H1 & H2). split; [exact H1|]. apply (F1 c p); [left; reflexivity|exact H2].
      * intros d p I H H1. destruct (F2 d p I H) as (d' & [<-|[]] & H2). eexists. split; [left; reflexivity|]. cbn beta. auto.
  - apply orb_false_iff in E. destruct E as (E1 & E2). destruct interface; [|discriminate E1]. exists (s :: st'), (c :: cs'). split; [reflexivity|]. split.
    { constructor; [apply stmt_line; assumption|exact T]. }
    split; [intros d p I H; split; [apply Ei; reflexivity|exact (F1 d p I H)]|]. intros d p I H _. exact (F2 d p I H).
Qed.

(** ** One family *)

Definition core (src dst : list net) (t : term) (p : packet) : Prop := sides src dst p /\ pp_says t p /\ interface_says t p.
(** The lines are rules of this verdict, of packets for which [c] holds. *)
Definition rules_say (verdict : string) (lines : list string) (c : packet -> Prop) : Prop :=
  forall s, In s lines -> exists d, rule_line s d (Verdict verdict) /\ forall p, bounded p -> d p -> c p.
Definition some_meets (lines : list string) (p : packet) : Prop :=
  exists s r, In s lines /\ nft_line s = Some (NRule r) /\ nmeets r p.
Lemma pps_short v t types fams : nft_term_ok fams t -> (t_source_interface t <> None \/ t_destination_interface t <> None) ->
  icmp_skip v t = false -> seen_types v (t_icmp_type t) types ->
  (List.length (ports_and_protocols v (t_protocol t) (t_source_port t) (t_destination_port t) types) <= 1)%nat.
Proof.
  intros OK H Sk Sn. pose proof (proj2 (nt_interface _ _ OK) H) as D. unfold ports_and_protocols.
  set (mine := match v with V4 => "icmp" | V6 => "icmpv6" end). set (other := match v with V4 => "icmpv6" | V6 => "icmp" end).
  destruct (some types && str_in mine (t_protocol t)) eqn:Et.
  - apply andb_true_iff in Et. destruct Et as (Et & Em). apply some_true in Et.
    assert (Nt : t_icmp_type t <> []) by (intros E; apply Et; destruct Sn as [-> | ->]; rewrite E; reflexivity).
    destruct (nt_types _ _ OK Nt) as [(A & _)|(A & _)]; rewrite A in *; destruct v; try discriminate Em; cbn; lia.
  - cbn [app]. destruct (str_in other (t_protocol t)) eqn:Eo.
    { exfalso. unfold icmp_skip in Sk. apply orb_false_iff in Sk. destruct Sk as (Sk & _). destruct v; unfold other in Eo; congruence. }
    destruct (some (t_protocol t)) eqn:Ep; [|cbn; lia].
    destruct D as [D|[(D1 & D2)|D]].
    + rewrite D in Ep. discriminate Ep.
    + rewrite D1, D2. cbn [some andb negb]. rewrite andb_true_r. destruct (1 <? Z.of_nat (List.length (t_protocol t))) eqn:E1; [cbn; lia|].
      rewrite map_length. lia.
    + destruct ((1 <? Z.of_nat (List.length (t_protocol t))) && negb (some (t_source_port t) && some (t_destination_port t))); [cbn; lia|]. rewrite map_length. lia.
Qed.
Lemma pps_not_icmp4 t types : forall s, In s (ports_and_protocols V6 (t_protocol t) (t_source_port t) (t_destination_port t) types) ->
  (forall q, In q (t_protocol t) -> In q (map fst proto_map)) -> starts_with "icmp type" s = false.
Proof.
  intros s I Q. unfold ports_and_protocols in I. set (pr := if some types && str_in "icmpv6" (t_protocol t) then remove_first "icmpv6" (t_protocol t) else t_protocol t) in *.
  set (pr' := if str_in "icmp" pr then remove_first "icmp" pr else pr) in *.
  assert (Rm : forall x l y, In y (remove_first x l) -> In y l).
  { intros x l y. induction l as [|z l IH]; [intros []|]. cbn. destruct (String.eqb x z); [auto|]. intros [<-|J]; auto. }
  assert (Pr : forall q, In q pr' -> In q (map fst proto_map)).
  { intros q J. apply Q. unfold pr' in J. assert (J' : In q pr) by (destruct (str_in "icmp" pr); [exact (Rm _ _ _ J)|exact J]).
    unfold pr in J'. destruct (some types && str_in "icmpv6" (t_protocol t)); [exact (Rm _ _ _ J')|exact J']. }
  assert (W : forall k, starts_with "icmp type" (append "meta l4proto" k) = false) by reflexivity.
  apply in_app_or in I. destruct I as [I|I].
  - destruct (some types && str_in "icmpv6" (t_protocol t)); [|destruct I]. destruct I as [<-|[]]. reflexivity.
  - destruct (some pr'); [|destruct I]. destruct ((1 <? Z.of_nat (List.length pr')) && negb (some (t_source_port t) && some (t_destination_port t))).
    + destruct I as [<-|[]]. apply W.
    + apply in_map_iff in I. destruct I as (q & <- & I). destruct (some (t_source_port t) || some (t_destination_port t)) eqn:E; [|apply W].
      apply Pr in I. clear - I E. unfold port_statement.
      assert (K : forall b k, b = "sport" \/ b = "dport" -> starts_with "icmp type" (append q (append " " (append b k))) = false).
      { intros b k B. cbn in I. destruct B as [-> | ->]; repeat destruct I as [<-|I]; try destruct I; reflexivity. }
      destruct (some (t_source_port t)), (some (t_destination_port t)); try discriminate E; cbn [app join].
      * rewrite !str_app_assoc. apply (K "sport" (append " " (append (nft_ports (t_source_port t)) (append " " (append q (append " dport " (nft_ports (t_destination_port t))))))) (or_introl eq_refl)).
      * apply (K "sport" (append " " (nft_ports (t_source_port t))) (or_introl eq_refl)).
      * apply (K "dport" (append " " (nft_ports (t_destination_port t))) (or_intror eq_refl)).
Qed.
Lemma family_exact fams v t src dst types verdict comment : nft_term_ok fams t -> In v fams -> valid_list src -> valid_list dst ->
  given (t_source_interface t) && given (t_destination_interface t) = false -> In verdict nft_verdicts -> comment_good comment ->
  seen_types v (t_icmp_type t) types -> icmp_skip v t = false ->
  let addrs := addr_statement v src dst in
  (some addrs = true \/ src = [] /\ dst = []) ->
  exists lines, group_expressions (nft_interface t) addrs (ports_and_protocols v (t_protocol t) (t_source_port t) (t_destination_port t) types)
                  (nft_options t) verdict comment = Ok lines /\
    rules_say verdict lines (core src dst t) /\
    forall p, bounded p -> fst (p_src p) = v -> core src dst t p -> ~ p_option p "established" -> some_meets lines p.
Proof.
  intros OK Iv Vs Vd G Iw Cg Sn Sk addrs Ha.
  destruct (pps_exact fams v t types types OK Iv Sn Sk eq_refl) as (cs & Pc & Ps & Pb & Pn).
  destruct (interface_piece fams t OK G) as (Pi & Ei). pose proof (options_piece fams t OK) as Po.
  set (pps := ports_and_protocols v (t_protocol t) (t_source_port t) (t_destination_port t) types) in *.
  assert (Len : List.length cs = List.length pps) by (symmetry; exact (Forall2_length Pc)).
  assert (A : exists ca : packet -> Prop, (addrs = [] /\ (forall p, ca p <-> True) \/ exists a, addrs = [a] /\ marked v a /\ piece a ca) /\
    (forall p, bounded p -> ca p -> sides src dst p) /\ (forall p, bounded p -> fst (p_src p) = v -> sides src dst p -> ca p)).
  { destruct (addrs_exact v src dst Vs Vd) as [(E1 & E2 & E3)|[(E1 & E2 & E3)|(s & c & E1 & E2 & E3 & E4 & E5)]].
    - exists (fun _ => True). split; [left; split; [exact E3|tauto]|]. split; [|auto]. intros p _ _. subst. split; left; reflexivity.
    - exfalso. destruct Ha as [Ha|(H1 & H2)]; [|destruct E1; congruence]. unfold addrs in Ha. rewrite E2 in Ha. discriminate Ha.
    - exists c. split; [right; exists s; auto|]. split; intros p B H; [apply (E5 p B), H|]. intros H2. apply (E5 p B). auto. }
  destruct A as (ca & A1 & A2 & A3).
  destruct (group_exact v (nft_interface t) addrs pps (nft_options t) verdict comment (interface_says t) ca (new_says t) cs Iw A1 Pc) as (lines & cs' & E & F & F1 & F2).
  - intros -> s I. apply (pps_not_icmp4 t types s I). apply (nt_protocol _ _ OK).
  - exact Po.
  - exact Pi.
  - intros E p. destruct (Ei E) as (E1 & E2). unfold interface_says. rewrite E1, E2. cbn. auto.
  - intros N. rewrite Len. apply (pps_short v t types fams OK); [|exact Sk|exact Sn].
    destruct (t_source_interface t) eqn:X1; [left; discriminate|]. destruct (t_destination_interface t) eqn:X2; [right; discriminate|].
    exfalso. apply N. unfold nft_interface. rewrite X1, X2. reflexivity.
  - exact Cg.
  - exists lines. split; [exact E|].
    assert (K1 : forall d p, In d (product ca (new_says t) cs) -> d p -> ca p /\ pp_says t p).
    { intros d p I H. unfold product in I. destruct cs as [|c0 cs].
      - destruct I as [<-|[]]. destruct H as (H & _). split; [exact H|]. apply Pn. destruct pps; [reflexivity|discriminate Len].
      - apply in_map_iff in I. destruct I as (x & <- & I). destruct H as (H1 & H2 & _). split; [exact H1|exact (Ps x p I H2)]. }
    split.
    + intros s I. destruct (Forall2_in_l _ _ _ F s I) as (d & Id & R). exists d. split; [exact R|]. intros p B D. destruct (F1 d p Id D) as (H1 & d' & I' & D').
      destruct (K1 d' p I' D') as (H2 & H3). split; [apply A2; assumption|]. split; [exact H3|exact H1].
    + intros p B Fv (C1 & C2 & C3) Ne. assert (H : exists d, In d (product ca (new_says t) cs) /\ d p).
      { specialize (A3 p B Fv C1). assert (Nw : new_says t p) by (intros _ _; exact Ne). unfold product.
        destruct (Pb p Fv C2) as [E0|(d & Id & D)].
        - destruct cs as [|c0 cs]; [|rewrite E0 in Len; discriminate Len]. eexists. split; [left; reflexivity|]. cbn beta. auto.
        - destruct cs as [|c0 cs]; [destruct Id|]. eexists. split; [apply in_map_iff; exists d; split; [reflexivity|exact Id]|]. cbn beta. auto. }
      destruct H as (d & Id & D). destruct (F2 d p Id D C3) as (d' & I' & D').
      destruct (Forall2_in_r _ _ _ F d' I') as (s & Is & (r & R1 & R2 & R3 & R4)). exists s, r. split; [exact Is|]. split; [exact R1|]. apply R3, D'.
Qed.

(** ** All families *)

Lemma loop_exact t src dst verdict comment all : nft_term_ok all t -> valid_list src -> valid_list dst ->
  given (t_source_interface t) && given (t_destination_interface t) = false -> In verdict nft_verdicts -> comment_good comment ->
  forall fams types, (forall v, In v fams -> In v all) ->
  (forall v, In v fams -> seen_types v (t_icmp_type t) (map_icmp_types v types)) -> (fams = [] \/ fams = [V4] \/ fams = [V6] \/ (fams = [V4; V6] /\ types = t_icmp_type t)) ->
  exists lines, ruleset_loop (set_source_address src (set_destination_address dst t)) verdict comment fams types = Ok lines /\
    rules_say verdict lines (core src dst t) /\
    forall p, bounded p -> In (fst (p_src p)) fams -> (icmp_skip (fst (p_src p)) t = true -> ~ pp_says t p) -> core src dst t p -> ~ p_option p "established" -> some_meets lines p.
Proof.
  intros OK Vs Vd G Iw Cg fams. induction fams as [|v fams IH]; intros types Ia Hs Hf.
  { exists []. split; [reflexivity|]. split; [intros s []|]. intros p _ []. }
  assert (Hf' : forall tys, (tys = types \/ tys = map_icmp_types v types) -> exists lines, ruleset_loop (set_source_address src (set_destination_address dst t)) verdict comment fams tys = Ok lines /\
    rules_say verdict lines (core src dst t) /\
    forall p, bounded p -> In (fst (p_src p)) fams -> (icmp_skip (fst (p_src p)) t = true -> ~ pp_says t p) -> core src dst t p -> ~ p_option p "established" -> some_meets lines p).
  { intros tys Ht. apply IH.
    - intros w I. apply Ia. right. exact I.
    - intros w I. destruct Hf as [Hf|[Hf|[Hf|(Hf & Ht2)]]]; try discriminate Hf; injection Hf as -> ->; [destruct I|destruct I|]. destruct I as [<-|[]]. subst types.
      destruct Ht as [-> | ->]; [left; reflexivity|right; reflexivity].
    - destruct Hf as [Hf|[Hf|[Hf|(Hf & _)]]]; try discriminate Hf; injection Hf as -> ->; auto. }
  cbn [ruleset_loop]. change (t_source_address (set_source_address src (set_destination_address dst t))) with src.
  change (t_destination_address (set_source_address src (set_destination_address dst t))) with dst.
  change (t_protocol (set_source_address src (set_destination_address dst t))) with (t_protocol t).
  change (t_source_port (set_source_address src (set_destination_address dst t))) with (t_source_port t).
  change (t_destination_port (set_source_address src (set_destination_address dst t))) with (t_destination_port t).
  change (nft_interface (set_source_address src (set_destination_address dst t))) with (nft_interface t).
  change (nft_options (set_source_address src (set_destination_address dst t))) with (nft_options t).
  cbv zeta. fold (icmp_skip v t).
  destruct (negb (some (addr_statement v src dst)) && (some src || some dst)) eqn:Ea.
  - apply andb_true_iff in Ea. destruct Ea as (Ea1 & Ea2). apply negb_true_iff, some_false in Ea1.
    destruct (Hf' types (or_introl eq_refl)) as (lines & E & R & M). exists lines. split; [exact E|]. split; [exact R|].
    intros p B I Sk C Ne. destruct I as [I|I]; [|exact (M p B I Sk C Ne)]. exfalso.
    destruct (addrs_exact v src dst Vs Vd) as [(E1 & E2 & _)|[(_ & _ & E3)|(s & c & E1 & _)]].
    + subst. discriminate Ea2.
    + apply (E3 p B (eq_sym I)), C.
    + congruence.
  - assert (Ha : some (addr_statement v src dst) = true \/ src = [] /\ dst = []).
    { destruct (some (addr_statement v src dst)); [auto|]. cbn [negb andb] in Ea. apply orb_false_iff in Ea. rewrite !some_false in Ea. auto. }
    destruct (Hf' _ (or_intror eq_refl)) as (lines & E & R & M).
    destruct (icmp_skip v t) eqn:Es.
    + exists lines. split; [exact E|]. split; [exact R|]. intros p B I Sk C Ne. destruct I as [I|I]; [|exact (M p B I Sk C Ne)]. exfalso.
      apply Sk; [rewrite <- I; exact Es|apply C].
    + destruct (family_exact all v t src dst (map_icmp_types v types) verdict comment OK (Ia v (or_introl eq_refl)) Vs Vd G Iw Cg (Hs v (or_introl eq_refl)) Es Ha) as (l1 & E1 & R1 & M1).
      rewrite E1. cbn [bind]. rewrite E. cbn [bind]. exists (l1 ++ lines). split; [reflexivity|]. split.
      * intros s I. apply in_app_or in I. destruct I as [I|I]; [exact (R1 s I)|exact (R s I)].
      * intros p B I Sk C Ne.
        assert (X : some_meets l1 p \/ some_meets lines p) by (destruct I as [I|I]; [left; apply M1; auto|right; apply M; auto]).
        destruct X as [(s & r & I1 & I2)|(s & r & I1 & I2)]; exists s, r; (split; [apply in_or_app; auto|exact I2]).
Qed.
Lemma unique_in l : forall seen x, In x (unique seen l) <-> In x l /\ ~ In x seen.
Proof.
  induction l as [|y l IH]; intros seen x; cbn [unique]; [split; [intros []|intros ([] & _)]|].
  destruct (str_in y seen) eqn:E.
  - apply str_in_iff in E. rewrite IH. cbn [In]. split; [tauto|]. intros ([<-|I] & N); [contradiction|auto].
  - apply str_in_false in E. cbn [In]. rewrite IH. cbn [In]. split.
    + intros [<-|(I & N)]; [auto|]. tauto.
    + intros ([<-|I] & N); [auto|]. destruct (string_dec y x) as [->|D]; [auto|]. tauto.
Qed.
Lemma ruleset_exact fams verbose t src dst : nft_term_ok fams t -> valid_list src -> valid_list dst -> In fams [[V4]; [V6]; [V4; V6]] ->
  given (t_source_interface t) && given (t_destination_interface t) = false ->
  exists lines a, ruleset fams verbose (set_source_address src (set_destination_address dst t)) = Ok lines /\ t_action t = [a] /\
    rules_say (nft_verdict a) lines (core src dst t) /\
    forall p, nft_traffic fams p -> core src dst t p -> ~ p_option p "established" -> some_meets lines p.
Proof.
  intros OK Vs Vd If G. destruct (nt_action _ _ OK) as (a & Ea & Ia). unfold ruleset.
  change (t_action (set_source_address src (set_destination_address dst t))) with (t_action t).
  change (t_icmp_type (set_source_address src (set_destination_address dst t))) with (t_icmp_type t).
  change (t_comment (set_source_address src (set_destination_address dst t))) with (t_comment t).
  rewrite Ea. assert (Ev : assoc a nft_actions = Some (nft_verdict a)) by (repeat destruct Ia as [<-|Ia]; try destruct Ia; reflexivity). rewrite Ev.
  assert (Iw : In (nft_verdict a) nft_verdicts) by (repeat destruct Ia as [<-|Ia]; try destruct Ia; cbn; auto).
  set (comment := if verbose then _ else _).
  assert (Cg : comment_good comment) by (unfold comment; destruct verbose; [right; exists (t_comment t); reflexivity|left; reflexivity]).
  destruct (loop_exact t src dst (nft_verdict a) comment fams OK Vs Vd G Iw Cg fams (t_icmp_type t)) as (lines & E & R & M).
  - auto.
  - intros v _. left. reflexivity.
  - repeat destruct If as [<-|If]; try destruct If; auto.
  - rewrite E. cbn [bind]. exists (unique [] lines), a. split; [reflexivity|]. split; [reflexivity|]. split.
    + intros s I. apply unique_in in I. apply R, I.
    + intros p T C Ne. destruct T as ((v & Iv & F1 & F2 & B1 & B2 & Np) & _ & _).
      destruct (M p) as (s & r & I & L & N).
      * split; [congruence|]. rewrite F1, F2. auto.
      * rewrite F1. exact Iv.
      * intros Sk (Pm & _). rewrite F1 in Sk. unfold icmp_skip in Sk. apply orb_true_iff in Sk. destruct Sk as [Sk|Sk].
        -- destruct Pm as ([Pm|(q & Iq & Eq)] & _); [rewrite Pm in Sk; destruct v; discriminate Sk|].
           destruct v; apply str_in_iff in Sk.
           ++ apply Np. rewrite Eq. apply (proj2 (nt_icmp _ _ OK) Iv Sk q Iq).
           ++ apply Np. rewrite Eq. apply (proj1 (nt_icmp _ _ OK) Iv Sk q Iq).
        -- apply str_in_iff in Sk. apply (nt_protocol _ _ OK) in Sk. apply str_in_iff in Sk. discriminate Sk.
      * exact C.
      * exact Ne.
      * exists s, r. split; [apply unique_in; split; [exact I|intros []]|auto].
Qed.
