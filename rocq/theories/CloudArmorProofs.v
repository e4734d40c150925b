(** Proofs about the Cloud Armor generator. *)
From Coq Require Import Lia ZifyBool ZifyNat.
From Verif Require Import SpecCloudArmor BaseFacts PyStrFacts IPFacts CollapseProofs ExcludeProofs PolicyProofs GenProofs GenProofs2 TextProofs IptText CiscoProofs CiscoProofs2 CiscoAcl GceProofs QuietTerm OpenConfigProofs.
Local Open Scope string_scope.
Local Open Scope list_scope.
Local Open Scope Z_scope.

(** ** One rule *)
Lemma ca_paths d a l n : let r := ca_rule d a l n in
  ranges_of r (map JStr l) /\ path ["match"; "versionedExpr"] r = Some (JStr "SRC_IPS_V1") /\ path ["preview"] r = Some (JBool false) /\
  path ["action"] r = Some (JStr a) /\ path ["priority"] r = Some (JNum n) /\ path ["description"] r = option_map JStr d.
Proof. cbv zeta. unfold ranges_of, ca_rule. destruct d as [d|]; repeat split; reflexivity. Qed.
Lemma ca_says_rule d a l n p o : ca_says (ca_rule d a l n) p o <-> o = a /\ exists s, In s l /\ (s = "*" \/ range_has (p_src p) s).
Proof.
  destruct (ca_paths d a l n) as (P1 & P2 & P3 & P4 & _). unfold ca_says, ca_matches, ranges_of in *. rewrite P1, P2, P3, P4. split.
  - intros ((_ & l' & s & E & I & S) & _ & X). injection E as <-. injection X as <-. split; [reflexivity|]. apply in_map_iff in I. destruct I as (s' & X & I). injection X as ->. exists s. auto.
  - intros (-> & s & I & S). split; [|auto]. split; [reflexivity|]. exists (map JStr l), s. split; [reflexivity|]. split; [apply in_map; exact I|exact S].
Qed.

(** ** The rules of a term *)
Lemma ca_split_length d a n k : forall cs i, List.length (ca_split d a n i k cs) = List.length cs.
Proof. induction cs as [|c cs IH]; intros i; [reflexivity|]. cbn [ca_split List.length]. rewrite IH. reflexivity. Qed.
Lemma ca_split_nth d a n k : forall cs i j r, nth_error (ca_split d a n i k cs) j = Some r ->
  exists c, nth_error cs j = Some c /\ r = ca_rule (if 1 <? n then Some (ca_part d n (i + Z.of_nat j)) else d) a (map prefixlen_text c) (k + (i + Z.of_nat j)).
Proof.
  induction cs as [|c cs IH]; intros i j r E; [destruct j; discriminate E|]. cbn [ca_split] in E. destruct j as [|j]; cbn [nth_error] in E.
  - injection E as <-. exists c. split; [reflexivity|]. cbn [Z.of_nat]. rewrite !Z.add_0_r. reflexivity.
  - destruct (IH _ _ _ E) as (c' & N & ->). exists c'. split; [exact N|]. replace (i + 1 + Z.of_nat j) with (i + Z.of_nat (S j)) by lia. reflexivity.
Qed.
Lemma chunks_nonempty {A} (n : nat) : (0 < n)%nat -> forall fuel (l : list A) c, In c (chunks fuel n l) -> c <> [].
Proof.
  intros Hn. induction fuel as [|f IH]; intros l c I; [destruct I|]. destruct l as [|x l]; [destruct I|]. cbn [chunks] in I.
  destruct I as [<-|I]; [destruct n; [lia|discriminate]|]. exact (IH _ _ I).
Qed.
Definition fits (d : option string) : Prop := forall s, d = Some s -> (String.length s <= 64)%nat.
Lemma slice_short s n : 0 <= n -> (String.length (slice_to s n) <= Z.to_nat n)%nat.
Proof. intros H. unfold slice_to. destruct (Z.ltb_spec n 0) as [X|X]; [lia|]. apply substring_length. Qed.
Lemma ca_description_fits verbose t : fits (ca_description verbose t).
Proof.
  intros s. unfold ca_description. destruct (_ && _); [|discriminate]. cbv zeta. destruct (Z.ltb_spec 64 (slen (join " " (t_comment t)))) as [L|L].
  - intros E. assert (Es : s = slice_to (join " " (t_comment t)) 64) by congruence. rewrite Es. apply (slice_short _ 64). lia.
  - intros E. assert (Es : s = join " " (t_comment t)) by congruence. rewrite Es. unfold slen in L. lia.
Qed.
Lemma dec_short n : 0 <= n <= 200 -> (String.length (dec n) <= 3)%nat.
Proof.
  intros H. assert (A : forallb (fun k => (String.length (dec (Z.of_nat k)) <=? 3)%nat) (seq 0 201) = true) by (vm_compute; reflexivity).
  rewrite forallb_forall in A. specialize (A (Z.to_nat n) ltac:(apply in_seq; lia)). rewrite Z2Nat.id in A by lia. apply Nat.leb_le in A. exact A.
Qed.
Lemma ca_part_fits d n i : 0 <= i < n -> n <= 200 -> (String.length (ca_part d n i) <= 64)%nat.
Proof.
  intros H1 H2. unfold ca_part. cbv zeta. set (suffix := append " [" _). assert (L : (String.length suffix <= 10)%nat).
  { unfold suffix. rewrite !GenProofs.length_app. pose proof (dec_short (i + 1) ltac:(lia)). pose proof (dec_short n ltac:(lia)). cbn [String.length]. lia. }
  rewrite GenProofs.length_app. unfold slen. pose proof (slice_short (match d with Some d0 => d0 | None => "" end) (64 - Z.of_nat (String.length suffix)) ltac:(lia)). lia.
Qed.
(** The rules of a term: numbered on from [k]. *)
Lemma ca_term_rules family verbose k t rs : ca_term family verbose k t = Ok rs ->
  exists act rest action saddrs, t_action t = act :: rest /\ assoc act ca_actions = Some action /\ ca_sources family t = Ok saddrs /\ rs <> [] /\
    (forall i r, nth_error rs i = Some r -> exists d l, r = ca_rule d action l (k + Z.of_nat i) /\ l <> [] /\ (List.length l <= 5)%nat /\ (Z.of_nat (List.length rs) <= 200 -> fits d)) /\
    forall p o, (exists r, In r rs /\ ca_says r p o) <-> o = action /\ (saddrs = [] \/ exists n, In n saddrs /\ range_has (p_src p) (prefixlen_text n)).
Proof.
  intros E. unfold ca_term in E. cbv zeta in E. destruct (t_action t) as [|act rest] eqn:Ea; [discriminate E|]. destruct (assoc act ca_actions) as [action|] eqn:Em; [|discriminate E].
  destruct (ca_sources family t) as [saddrs|] eqn:Es; [|discriminate E]. cbn [bind] in E. exists act, rest, action, saddrs. do 3 (split; [reflexivity || assumption|]).
  set (cs := chunks (List.length saddrs) 5 saddrs) in E. pose proof (ca_description_fits verbose t) as D.
  assert (St : forall n, prefixlen_text n <> "*").
  { intros n X. unfold prefixlen_text in X. assert (L : String.length (append (addr_text (nver n) (naddr n)) (append "/" (dec (nlen n)))) = 1%nat) by (rewrite X; reflexivity).
    rewrite !GenProofs.length_app in L. cbn [String.length] in L. assert (Z0 : addr_text (nver n) (naddr n) = "") by (destruct (addr_text (nver n) (naddr n)); [reflexivity|cbn in L; lia]). rewrite Z0 in X. discriminate X. }
  destruct cs as [|c0 cs0] eqn:Ec.
  - apply ok_inj in E. subst rs. assert (Z0 : saddrs = []). { rewrite <- (chunks_concat 5 ltac:(lia) (List.length saddrs) saddrs (le_n _)). fold cs. rewrite Ec. reflexivity. }
    split; [discriminate|]. split.
    + intros [|i] r H; [|destruct i; discriminate H]. injection H as <-. exists (ca_description verbose t), ["*"]. rewrite Z.add_0_r. split; [reflexivity|]. split; [discriminate|]. split; [cbn; lia|auto].
    + intros p o. split.
      * intros (r & [<-|[]] & S). apply ca_says_rule in S. destruct S as [-> _]. auto.
      * intros [-> _]. eexists. split; [left; reflexivity|]. apply ca_says_rule. split; [reflexivity|]. exists "*". cbn; auto.
  - rewrite <- Ec in E. apply ok_inj in E. subst rs. set (n := Z.of_nat (List.length cs)).
    assert (Ne : saddrs <> []) by (intros X; unfold cs in Ec; rewrite X in Ec; discriminate Ec).
    split; [rewrite Ec; discriminate|]. split.
    + intros i r H. destruct (ca_split_nth _ _ _ _ _ _ _ _ H) as (c & N & ->). rewrite Z.add_0_l. eexists _, (map prefixlen_text c). split; [reflexivity|].
      pose proof (nth_error_In _ _ N) as I. split; [|split].
      * pose proof (chunks_nonempty 5 ltac:(lia) _ _ _ I) as X. destruct c; [congruence|discriminate].
      * rewrite map_length. exact (chunks_length _ _ _ _ I).
      * rewrite ca_split_length. fold n. intros L. assert (i < List.length cs)%nat by (apply nth_error_Some; congruence).
        destruct (1 <? n); [|exact D]. intros s X. injection X as <-. apply ca_part_fits; lia.
    + intros p o. split.
      * intros (r & I & S). apply In_nth_error in I. destruct I as (i & I). destruct (ca_split_nth _ _ _ _ _ _ _ _ I) as (c & N & ->). apply ca_says_rule in S.
        destruct S as (-> & s & Is & S). split; [reflexivity|]. right. apply in_map_iff in Is. destruct Is as (x & <- & Is). destruct S as [S|S]; [destruct (St x S)|].
        exists x. split; [|exact S]. apply (chunks_in 5); [lia|]. exists c. split; [exact (nth_error_In _ _ N)|exact Is].
      * intros [-> [X|(x & I & S)]]; [contradiction|]. apply (chunks_in 5) in I; [|lia]. destruct I as (c & Ic & I). fold cs in Ic. apply In_nth_error in Ic. destruct Ic as (i & Ic).
        assert (Hi : (i < List.length (ca_split (ca_description verbose t) action n 0 k cs))%nat) by (rewrite ca_split_length; apply nth_error_Some; congruence).
        destruct (nth_error (ca_split (ca_description verbose t) action n 0 k cs) i) as [r|] eqn:Er; [|apply nth_error_None in Er; lia].
        exists r. split; [exact (nth_error_In _ _ Er)|]. destruct (ca_split_nth _ _ _ _ _ _ _ _ Er) as (c' & N & ->). rewrite Ic in N. injection N as <-.
        apply ca_says_rule. split; [reflexivity|]. exists (prefixlen_text x). split; [apply in_map; exact I|auto].
Qed.

(** ** Limits *)
Definition ca_fine (r : json) : Prop := exists d a l n, r = ca_rule d a l n /\ l <> [] /\ (List.length l <= 5)%nat /\ fits d.
Lemma ca_terms_fine family verbose : forall ts k done rs, ca_terms family verbose k done ts = Ok rs -> (List.length done <= 200)%nat -> Forall ca_fine done ->
  (List.length rs <= 200)%nat /\ Forall ca_fine rs.
Proof.
  induction ts as [|t ts IH]; intros k done rs E L F; cbn [ca_terms] in E; [apply ok_inj in E; subst; auto|].
  destruct (ca_term family verbose k t) as [new|] eqn:E1; [|discriminate E]. cbn [bind] in E. cbv zeta in E.
  destruct (Z.ltb_spec 200 (Z.of_nat (List.length (done ++ new)))) as [X|X]; [discriminate E|]. apply IH in E; [exact E|lia|]. apply Forall_app. split; [exact F|].
  destruct (ca_term_rules _ _ _ _ _ E1) as (act & rest & action & saddrs & _ & _ & _ & _ & N & _). apply Forall_forall. intros r I. apply In_nth_error in I. destruct I as (i & I).
  destruct (N i r I) as (d & l & -> & N1 & N2 & N3). exists d, action, l, (k + Z.of_nat i). split; [reflexivity|]. split; [exact N1|]. split; [exact N2|]. apply N3. rewrite app_length in X. lia.
Qed.
Lemma ca_filters_fine : forall fs done rs, ca_filters done fs = Ok rs -> (List.length done <= 200)%nat -> Forall ca_fine done -> (List.length rs <= 200)%nat /\ Forall ca_fine rs.
Proof.
  induction fs as [|[options terms] fs IH]; intros done rs E L F; cbn [ca_filters] in E; [apply ok_inj in E; subst; auto|].
  destruct (ca_family options) as [family|]; [|discriminate E]. cbn [bind] in E. destruct (ca_terms _ _ 1 done terms) as [done'|] eqn:E1; [|discriminate E]. cbn [bind] in E.
  destruct (ca_terms_fine _ _ _ _ _ _ E1 L F) as [L' F']. exact (IH _ _ E L' F').
Qed.
Theorem ca_limits fs rules : ca_policy fs = Ok rules -> (List.length rules <= 200)%nat /\
  forall r, In r rules -> (exists l, ranges_of r l /\ (1 <= List.length l <= 5)%nat) /\ forall s, path ["description"] r = Some (JStr s) -> (String.length s <= 64)%nat.
Proof.
  unfold ca_policy. destruct (check_tokens _ _ _) as [[]|]; [|discriminate]. cbn [bind]. intros E. destruct (ca_filters_fine _ _ _ E (Nat.le_0_l _) (Forall_nil _)) as [L F]. split; [exact L|].
  intros r I. rewrite Forall_forall in F. destruct (F r I) as (d & a & l & n & -> & N1 & N2 & N3). destruct (ca_paths d a l n) as (P1 & _ & _ & _ & _ & P6). split.
  - exists (map JStr l). split; [exact P1|]. rewrite map_length. destruct l; [congruence|]. cbn [List.length] in *. lia.
  - intros s X. rewrite P6 in X. destruct d as [d|]; [|discriminate X]. injection X as <-. exact (N3 d eq_refl).
Qed.

(** ** Numbers and decisions *)
Definition ca_numbers (k : Z) (rs : list json) : Prop := forall i r, nth_error rs i = Some r -> path ["priority"] r = Some (JNum (k + Z.of_nat i)).
Lemma ca_numbers_app a xs ys : ca_numbers a xs -> ca_numbers (a + Z.of_nat (List.length xs)) ys -> ca_numbers a (xs ++ ys).
Proof.
  intros N1 N2 i r H. destruct (Nat.lt_ge_cases i (List.length xs)) as [L|L].
  - rewrite nth_error_app1 in H by exact L. exact (N1 i r H).
  - rewrite nth_error_app2 in H by exact L. rewrite (N2 _ r H). do 2 f_equal. lia.
Qed.
Definition ca_block (family : string) (t : term) (b : list json) : Prop :=
  exists act rest action saddrs, t_action t = act :: rest /\ assoc act ca_actions = Some action /\ ca_sources family t = Ok saddrs /\
    forall p o, (exists r, In r b /\ ca_says r p o) <-> o = action /\ (saddrs = [] \/ exists n, In n saddrs /\ range_has (p_src p) (prefixlen_text n)).
Lemma ca_terms_blocks family verbose : forall ts k done rs, ca_terms family verbose k done ts = Ok rs ->
  exists blocks, rs = done ++ concat blocks /\ ca_numbers k (concat blocks) /\ Forall2 (ca_block family) ts blocks.
Proof.
  induction ts as [|t ts IH]; intros k done rs E; cbn [ca_terms] in E.
  - apply ok_inj in E. subst rs. exists []. split; [symmetry; apply app_nil_r|]. split; [intros [|i] r H; discriminate H|constructor].
  - destruct (ca_term family verbose k t) as [new|] eqn:E1; [|discriminate E]. cbn [bind] in E. cbv zeta in E. destruct (200 <? _); [discriminate E|].
    destruct (IH _ _ _ E) as (bs & -> & N & F). destruct (ca_term_rules _ _ _ _ _ E1) as (act & rest & action & saddrs & A1 & A2 & A3 & _ & A5 & A6).
    exists (new :: bs). split; [rewrite <- app_assoc; reflexivity|]. split.
    + cbn [concat]. apply ca_numbers_app; [|exact N]. intros i r H. destruct (A5 i r H) as (d & l & -> & _). apply (ca_paths d action l (k + Z.of_nat i)).
    + constructor; [|exact F]. exists act, rest, action, saddrs. auto.
Qed.
Lemma ca_first rs p o : ca_numbers 1 rs -> (ca_decides rs p o <-> first_says (fun r o => ca_says r p o) rs o).
Proof.
  intros N. split.
  - intros (r & n & I & S & P & L). apply In_nth_error in I. destruct I as (i & I). rewrite (N i r I) in P. assert (En : n = 1 + Z.of_nat i) by congruence. subst n. clear P.
    destruct (nth_error_split rs i I) as (l1 & l2 & -> & Len). exists l1, r, l2. split; [reflexivity|]. split; [exact S|].
    intros y w Iy Sy. apply In_nth_error in Iy. destruct Iy as (k & Iy). assert (Lk : (k < List.length l1)%nat) by (apply nth_error_Some; congruence).
    assert (Iy' : nth_error (l1 ++ r :: l2) k = Some y) by (rewrite nth_error_app1 by exact Lk; exact Iy).
    apply (L y w (1 + Z.of_nat k)); [exact (nth_error_In _ _ Iy')|exact Sy|apply (N k y Iy')|lia].
  - intros (l1 & e & l2 & E & S & L). assert (I : nth_error rs (List.length l1) = Some e) by (rewrite E, nth_error_app2, Nat.sub_diag by lia; reflexivity).
    exists e, (1 + Z.of_nat (List.length l1)). split; [exact (nth_error_In _ _ I)|]. split; [exact S|]. split; [apply (N _ _ I)|].
    intros r' o' n' I' S' P' Ln. apply In_nth_error in I'. destruct I' as (k & I'). rewrite (N k r' I') in P'. assert (En : n' = 1 + Z.of_nat k) by congruence. subst n'. clear P'.
    destruct (Nat.eq_dec k (List.length l1)) as [->|Nk].
    + assert (r' = e) by congruence. subst r'. destruct S as (_ & _ & S), S' as (_ & _ & S'). congruence.
    + apply (L r' o'); [|exact S']. rewrite E, nth_error_app1 in I' by lia. exact (nth_error_In _ _ I').
Qed.
Lemma ca_outcome_iff a o : assoc a ca_actions = Some o <-> ca_outcome a o.
Proof.
  unfold ca_outcome, ca_actions. cbn [assoc]. split.
  - destruct (String.eqb_spec a "accept") as [->|N1]; [intros E; injection E as <-; auto|].
    destruct (String.eqb_spec a "deny") as [->|N2]; [intros E; injection E as <-; auto|discriminate].
  - intros [[-> ->]|[-> ->]]; reflexivity.
Qed.
Lemma ca_family_spec options f family : ca_family options = Ok f -> header_family options family -> f = family.
Proof.
  intros E. unfold ca_family in E. intros [(A & ->)|(rest & Nf & [->| ->])].
  - destruct options as [|o [|o2 options]]; [apply ok_inj in E; auto| |].
    + rewrite (A o (or_introl eq_refl)) in E. cbn in E. apply ok_inj in E. auto.
    + rewrite (A o (or_introl eq_refl)), (A o2 (or_intror (or_introl eq_refl))) in E. cbn in E. discriminate E.
  - cbn [remove_first] in E. apply not_eq_sym, String.eqb_neq in Nf. rewrite Nf in E. destruct (str_in family _); [apply ok_inj in E; auto|discriminate E].
  - cbn [remove_first] in E. change (String.eqb "noverbose" "noverbose") with true in E. cbv iota in E. destruct (str_in family _); [apply ok_inj in E; auto|discriminate E].
Qed.
Lemma ca_sources_in family t l v n : ca_sources family t = Ok l -> nver n = v -> (In n l <-> In n (t_source_address t) /\ ca_wants v family).
Proof.
  intros E V. unfold ca_sources in E. cbv zeta in E. unfold ca_wants.
  destruct (String.eqb_spec family "inet") as [->|N1]; [|destruct (String.eqb_spec family "inet6") as [->|N2]; [|destruct (String.eqb_spec family "mixed") as [->|N3]; [|discriminate E]]]; apply ok_inj in E; subst l.
  - rewrite of_version. rewrite V. destruct v; split; try (intros [A B]; split; auto; try congruence); destruct B as [B|B]; try discriminate B; reflexivity.
  - rewrite of_version. rewrite V. destruct v; split; try (intros [A B]; split; auto; try congruence); destruct B as [B|B]; try discriminate B; reflexivity.
  - rewrite in_app_iff, !of_version. rewrite V. destruct v; intuition congruence.
Qed.
Theorem ca_priorities options terms rules : ca_policy [(options, terms)] = Ok rules ->
  forall i r, nth_error rules i = Some r -> path ["priority"] r = Some (JNum (Z.of_nat i + 1)).
Proof.
  unfold ca_policy. destruct (check_tokens _ _ _) as [[]|]; [|discriminate]. cbn [bind ca_filters]. intros E. destruct (ca_family options) as [f|]; [|discriminate E]. cbn [bind] in E.
  destruct (ca_terms _ _ 1 [] terms) as [rs|] eqn:E1; [|discriminate E]. cbn [bind] in E. apply ok_inj in E. subst rs.
  destruct (ca_terms_blocks _ _ _ _ _ _ E1) as (bs & -> & N & _). cbn [app]. intros i r H. rewrite (N i r H). do 2 f_equal. lia.
Qed.
Theorem ca_decides_as_policy options terms rules family today v p o : ca_policy [(options, terms)] = Ok rules -> header_family options family -> ca_wants v family ->
  (forall t, In t terms -> ca_term_ok family t) -> ca_traffic v p ->
  (ca_decides rules p o <-> ca_policy_decides today terms p o).
Proof.
  intros E H W K T. unfold ca_policy in E. cbn [map snd] in E. destruct (check_tokens _ _ _) as [[]|] eqn:Ck; [|discriminate E]. cbn [bind ca_filters] in E.
  destruct (ca_family options) as [f|] eqn:Ef; [|discriminate E]. cbn [bind] in E. apply (ca_family_spec _ _ _ Ef) in H. subst f.
  destruct (ca_terms _ _ 1 [] terms) as [rs|] eqn:E1; [|discriminate E]. cbn [bind] in E. apply ok_inj in E. subst rs.
  destruct (ca_terms_blocks _ _ _ _ _ _ E1) as (bs & -> & N & F). cbn [app]. rewrite (ca_first _ p o N).
  assert (Q : forall t, In t terms -> quiet "cloudarmor" t /\ t_destination_address t = [] /\ t_destination_address_exclude t = [] /\ t_source_address_exclude t = [] /\
    t_protocol t = [] /\ t_source_port t = [] /\ t_destination_port t = [] /\ t_option t = [] /\ t_icmp_type t = [] /\ t_expiration t = None).
  { intros t It. specialize (K t It). destruct (ct_warned _ _ K) as (K1 & K2 & K3 & K4). destruct (ct_texts _ _ K) as [K5 K6]. pose proof (ct_platform _ _ K) as Mf.
    assert (Tk : forall s, str_in s (supported default_tokens) = false -> str_in s (supported ca_tokens) = false).
    { intros s Hs. unfold ca_tokens. cbn [supported]. destruct (str_in s (filter _ _)) eqn:X; [|reflexivity]. apply str_in_spec, filter_In in X. destruct X as [X _]. apply str_in_spec in X. congruence. }
    split; [exact (accepted_quiet "cloudarmor" ca_tokens _ ["cloudarmor"] terms t Tk Ck (or_introl eq_refl) (or_introl eq_refl) It Mf K1 K2 K3 K4 K5 K6)|].
    pose proof (unsupported_not_set "cloudarmor" ca_tokens _ _ _ t Ck (or_introl eq_refl) (or_introl eq_refl) It Mf) as U.
    assert (Ns : forall s, str_in s (supported ca_tokens) = false -> ~ In s (supported ca_tokens)) by (intros s Hs X; apply str_in_spec in X; congruence).
    destruct U as (_ & _ & _ & U4 & U5 & U6 & _ & U8 & U9 & U10 & _ & U12 & _ & _ & _ & _ & _ & _ & _ & U20 & _).
    split; [apply U5, Ns; reflexivity|]. split; [apply U6, Ns; reflexivity|]. split; [apply U4, Ns; reflexivity|]. split; [apply U10, Ns; reflexivity|].
    split; [apply U8, Ns; reflexivity|]. split; [apply U9, Ns; reflexivity|]. split; [apply U12, Ns; reflexivity|]. split; [apply U20, Ns; reflexivity|].
    destruct (t_expiration t) as [e|] eqn:Ex; [|reflexivity]. exfalso.
    apply (accepted_unset "cloudarmor" ca_tokens _ ["cloudarmor"] terms t Ck (or_introl eq_refl) (or_introl eq_refl) It Mf "expiration" (VAtom true)); try reflexivity; [|apply Ns; reflexivity].
    unfold term_fields. rewrite Ex. repeat first [left; reflexivity|right]. }
  unfold ca_policy_decides. apply first_says_blocks. clear Ck E1 N. revert K Q. induction F as [|t b ts bs B F IH]; intros K Q; [constructor|].
  constructor; [|apply IH; intros u I; [apply K|apply Q]; right; exact I]. destruct B as (act & rest & action & saddrs & A1 & A2 & A3 & A4).
  destruct (Q t (or_introl eq_refl)) as (Qt & Q1 & Q2 & Q3 & Q4 & Q5 & Q6 & Q7 & Q8 & Q9). pose proof (K t (or_introl eq_refl)) as Kt.
  split.
  - intros w. rewrite A4. assert (Fo : in_force today t) by (intros d X; rewrite Q9 in X; discriminate X).
    rewrite (quiet_matches _ t p Qt (cq_platform _ _ T)), Q1, Q2, Q3, Q4, Q5, Q6, Q7, Q8.
    destruct (cq_src _ _ T) as [S1 S2]. assert (On : on_net (p_src p)) by (unfold on_net; rewrite S1; exact S2).
    assert (Side : (saddrs = [] \/ exists n, In n saddrs /\ range_has (p_src p) (prefixlen_text n)) <-> side_matches (t_source_address t) [] (p_src p)).
    { unfold side_matches. rewrite covered_nil.
      assert (Va : forall n, In n (t_source_address t) -> valid n). { pose proof (ct_addresses _ _ Kt) as V. intros n I. exact (proj1 (Forall_forall _ _) V n I). }
      split.
      - intros X. split; [|intros []]. destruct X as [X|(n & I & S)].
        + left. destruct (ct_present _ _ Kt) as [Y|(n & I & Wn)]; [exact Y|]. exfalso. assert (Z0 : In n saddrs) by (apply (ca_sources_in _ _ _ _ _ A3 eq_refl); auto). rewrite X in Z0. destruct Z0.
        + apply (ca_sources_in _ _ _ _ _ A3 eq_refl) in I. destruct I as [I _]. right. exists n. split; [exact I|]. apply range_text; auto.
      - intros [[X|(n & I & C)] _].
        + left. destruct saddrs as [|n l]; [reflexivity|]. exfalso. destruct (proj1 (ca_sources_in _ _ _ _ n A3 eq_refl) (or_introl eq_refl)) as [Y _]. rewrite X in Y. destruct Y.
        + right. exists n. split; [|apply range_text; auto]. apply (ca_sources_in _ _ _ _ _ A3 eq_refl). split; [exact I|]. destruct C as [C _]. rewrite C, S1. exact W. }
    rewrite Side. split.
    + intros [-> S]. split; [exact Fo|]. split; [|exists act, rest; split; [exact A1|apply ca_outcome_iff; exact A2]]. split; [exact S|]. split; [split; [left; reflexivity|rewrite covered_nil; intros []]|].
      split; [left; reflexivity|]. split; [left; reflexivity|]. split; [left; reflexivity|]. split; [intros x []|left; reflexivity].
    + intros (_ & (S & _) & a & r & Ea & O). split; [|exact S]. rewrite A1 in Ea. injection Ea as <- _. apply ca_outcome_iff in O. congruence.
  - intros w w' (_ & _ & a & r & Ea & O) (_ & _ & a' & r' & Ea' & O'). rewrite Ea in Ea'. injection Ea' as <- _. apply ca_outcome_iff in O, O'. congruence.
Qed.
