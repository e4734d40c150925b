(** Proofs about the generator of hierarchical firewall policies: headers, decisions and limits. *)
From Coq Require Import Lia ZifyBool ZifyNat Permutation.
From Verif Require Import SpecGcpHf BaseFacts PyStrFacts IPFacts CollapseProofs ExcludeProofs PolicyProofs GenProofs GenProofs2 TextProofs IptText IptPart CiscoProofs CiscoProofs2 CiscoAcl GceProofs GceRules GceDecide CiscoGroupAcl QuietTerm OpenConfigProofs CloudArmorProofs K8sProofs PortNameProofs GcpHfProofs.
Local Open Scope string_scope.
Local Open Scope list_scope.
Local Open Scope Z_scope.

(** ** Options *)
Lemma remove_first_in (x y : string) l : In y (ModelGce.remove_first x l) -> In y l.
Proof. induction l as [|z l IH]; [auto|]. cbn [ModelGce.remove_first]. destruct (String.eqb x z); [right; assumption|]. intros [->|I]; [left; reflexivity|right; auto]. Qed.
Lemma remove_first_other (x y : string) l : x <> y -> (In y (ModelGce.remove_first x l) <-> In y l).
Proof.
  intros N. split; [apply remove_first_in|]. induction l as [|z l IH]; [auto|]. cbn [ModelGce.remove_first]. destruct (String.eqb_spec x z) as [<-|Nz].
  - intros [E|I]; [contradiction|exact I].
  - intros [->|I]; [left; reflexivity|right; auto].
Qed.
Lemma pick_cases : forall cands d o, (fst (pick cands d o) = d /\ forall c, In c cands -> ~ In c o) \/ (In (fst (pick cands d o)) cands /\ In (fst (pick cands d o)) o).
Proof.
  unfold pick. induction cands as [|c cands IH]; intros d o; cbn [fold_left fst snd]; [left; split; [reflexivity|intros c []]|]. destruct (str_in c o) eqn:E.
  - apply str_in_spec in E. right. destruct (IH c (ModelGce.remove_first c o)) as [(-> & _)|(I & J)]; [split; [left; reflexivity|exact E]|]. split; [right; exact I|exact (remove_first_in _ _ _ J)].
  - destruct (IH d o) as [(-> & N)|(I & J)]; [left; split; [reflexivity|]|right; split; [right; exact I|exact J]].
    intros x [->|I]; [intros I; apply str_in_spec in I; congruence|exact (N x I)].
Qed.
Lemma pick_keeps y : forall cands d o, ~ In y cands -> (In y (snd (pick cands d o)) <-> In y o).
Proof.
  unfold pick. induction cands as [|c cands IH]; intros d o N; cbn [fold_left fst snd]; [reflexivity|]. destruct (str_in c o).
  - rewrite IH by (intros X; apply N; right; exact X). apply remove_first_other. intros ->. apply N. left. reflexivity.
  - apply IH. intros X. apply N. right. exact X.
Qed.
Lemma first_int_other x l : numeral_value x = None -> first_int (ModelGce.remove_first x l) = first_int l.
Proof.
  intros N. induction l as [|y l IH]; [reflexivity|]. cbn [ModelGce.remove_first first_int]. destruct (String.eqb_spec x y) as [<-|].
  - destruct (py_int x) as [n|] eqn:E; [|reflexivity]. apply py_int_numeral in E. congruence.
  - cbn [first_int]. rewrite IH. reflexivity.
Qed.
Lemma first_int_pick cands : forall d o, (forall c, In c cands -> numeral_value c = None) -> first_int (snd (pick cands d o)) = first_int o.
Proof.
  unfold pick. induction cands as [|c cands IH]; intros d o N; cbn [fold_left fst snd]; [reflexivity|].
  destruct (str_in c o); [|apply IH; intros; apply N; right; assumption]. rewrite IH by (intros; apply N; right; assumption). apply first_int_other, N. left. reflexivity.
Qed.
Lemma digits_nonneg : forall s acc n, digits_value s acc = Some n -> 0 <= acc -> 0 <= n.
Proof.
  induction s as [|c s IH]; intros acc n H P; cbn [digits_value] in H; [injection H as <-; exact P|]. destruct (digit_value c) as [d|] eqn:D; [|discriminate H]. apply (IH _ _ H).
  unfold digit_value in D. cbv zeta in D. destruct ((48 <=? nat_of_ascii c) && (nat_of_ascii c <=? 57))%nat; [|discriminate D]. injection D as <-. lia.
Qed.
Lemma py_int_nonneg s n : py_int s = Ok n -> 0 <= n.
Proof. intros E. apply py_int_numeral in E. unfold numeral_value in E. destruct s; [discriminate E|]. apply (digits_nonneg _ _ _ E). lia. Qed.
Lemma first_int_spec o : (exists s n, first_int o = Some (s, n) /\ 0 <= n /\ exists l1 l2, o = l1 ++ s :: l2 /\ numeral_value s = Some n /\ forall x, In x l1 -> numeral_value x = None) \/
  (first_int o = None /\ forall x, In x o -> numeral_value x = None).
Proof.
  induction o as [|x o IH]; [right; split; [reflexivity|intros x []]|]. cbn [first_int].
  assert (Nx : forall e, py_int x = Raise e -> numeral_value x = None).
  { intros e E. destruct (numeral_value x) as [n|] eqn:V; [|reflexivity]. apply py_int_numeral in V. congruence. }
  destruct (py_int x) as [n|e] eqn:E.
  - left. exists x, n. split; [reflexivity|]. split; [exact (py_int_nonneg _ _ E)|]. exists [], o. split; [reflexivity|]. split; [apply py_int_numeral; exact E|intros y []].
  - specialize (Nx e eq_refl). destruct IH as [(s & n & F & P & l1 & l2 & -> & V & A)|(F & A)].
    + left. exists s, n. split; [exact F|]. split; [exact P|]. exists (x :: l1), l2. split; [reflexivity|]. split; [exact V|]. intros y [<-|I]; auto.
    + right. split; [exact F|]. intros y [<-|I]; auto.
Qed.
Lemma limit_first options n : limit_of options n -> n = match first_int options with Some (_, m) => m | None => 100 end.
Proof.
  intros L. destruct (first_int_spec options) as [(s & m & -> & _ & l1 & l2 & -> & V & A)|(-> & A)].
  - destruct L as [(k1 & u & k2 & E & Vu & B)|(B & _)]; [|rewrite (B s) in V by (apply in_app_iff; right; left; reflexivity); discriminate V].
    revert k1 E B. induction l1 as [|x l1 IH]; intros [|y k1] E B; cbn [app] in E.
    + injection E as -> _. congruence.
    + injection E as -> _. rewrite (B y) in V by (left; reflexivity). discriminate V.
    + injection E as -> _. rewrite (A u) in Vu by (left; reflexivity). discriminate Vu.
    + injection E as _ E. apply (IH (fun z I => A z (or_intror I)) k1 E). intros z I. apply B. right. exact I.
  - destruct L as [(k1 & u & k2 & E & Vu & _)|(_ & ->)]; [|reflexivity]. rewrite (A u) in Vu by (rewrite E; apply in_app_iff; right; left; reflexivity). discriminate Vu.
Qed.
Lemma limit_exists options : exists n, limit_of options n.
Proof.
  destruct (first_int_spec options) as [(s & m & _ & _ & l1 & l2 & E & V & A)|(_ & A)]; [exists m; left; exists l1, s, l2; auto|exists 100; right; auto].
Qed.
Lemma dash_name_rfc s : dash_name s = true -> slen s <= 63 -> rfc1035 s.
Proof.
  unfold dash_name. intros H L. destruct s as [|c s]; [discriminate H|]. cbn [list_ascii_of_string] in H. rewrite !andb_true_iff in H. destruct H as ((H1 & H2) & H3).
  assert (A : forall x, lower_or_digit x = true -> lower_alnum x) by (intros [[] [] [] [] [] [] [] []]; vm_compute; intros E; try discriminate E; tauto).
  assert (B : forall x, lower_letter x = true -> In x (list_ascii_of_string "abcdefghijklmnopqrstuvwxyz")) by (intros [[] [] [] [] [] [] [] []]; vm_compute; intros E; try discriminate E; tauto).
  assert (C : lower_or_digit c = true) by (unfold lower_or_digit; rewrite H1; reflexivity).
  split; [unfold slen in L; lia|]. split; [|exists c, s; auto]. unfold dns_label. cbv zeta. cbn [list_ascii_of_string]. split; [|split; [apply A, C|apply A, H3]].
  intros x [<-|I]; [left; apply A, C|]. rewrite forallb_forall in H2. specialize (H2 x I). apply orb_true_iff in H2. destruct H2 as [H2|H2]; [left; apply A, H2|right; apply Ascii.eqb_eq, H2].
Qed.
Lemma hf_options_spec afs apis options i : hf_options afs apis options = Ok i -> Permutation afs family_words -> Permutation apis ["beta"; "ga"] ->
  (exists w, hi_direction i = hf_word w /\ header_way options w) /\
  (one_family_word options -> forall v, In v (gce_families (hi_af i)) <-> header_has options v) /\
  (~ In "beta" options -> hi_ga i = true) /\ (forall n, limit_of options n -> hi_max i = n) /\ 0 <= hi_max i <= 65536 /\ rfc1035 (hi_name i).
Proof.
  intros E Pa Pp. unfold hf_options in E. pose proof (k8_way_spec options) as Kw. unfold k8_way in Kw.
  pose proof (pick_keeps "beta" ["INGRESS"; "EGRESS"] "INGRESS" options ltac:(intros [X|[X|[]]]; discriminate X)) as Kb.
  assert (Kf : forall y, In y family_words -> In y (snd (pick ["INGRESS"; "EGRESS"] "INGRESS" options)) <-> In y options).
  { intros y I. apply pick_keeps. intros [X|[X|[]]]; subst y; cbn in I; intuition discriminate. }
  pose proof (first_int_pick ["INGRESS"; "EGRESS"] "INGRESS" options ltac:(intros c [<-|[<-|[]]]; reflexivity)) as Kn.
  destruct (pick ["INGRESS"; "EGRESS"] "INGRESS" options) as [direction o1]. cbn [fst snd] in *.
  pose proof (pick_cases afs "inet" o1) as Ca. pose proof (pick_keeps "beta" afs "inet" o1) as Kb2.
  assert (Nb : ~ In "beta" afs) by (intros X; apply (Permutation_in _ Pa) in X; cbn in X; intuition discriminate). specialize (Kb2 Nb).
  assert (Fn : forall c, In c afs -> numeral_value c = None) by (intros c X; apply (Permutation_in _ Pa) in X; destruct X as [<-|[<-|[<-|[]]]]; reflexivity).
  pose proof (first_int_pick afs "inet" o1 Fn) as Kn2. destruct (pick afs "inet" o1) as [af o2]. cbn [fst snd] in *.
  assert (Af : one_family_word options -> forall v, In v (gce_families af) <-> header_has options v).
  { intros One v. assert (Af : forall c, In c afs <-> In c family_words) by (intros c; split; intros X; [exact (Permutation_in _ Pa X)|exact (Permutation_in _ (Permutation_sym Pa) X)]).
    assert (W1 : In "inet" family_words) by (left; reflexivity). assert (W2 : In "inet6" family_words) by (right; left; reflexivity). assert (W3 : In "mixed" family_words) by (right; right; left; reflexivity).
    unfold header_has. destruct Ca as [(-> & N)|(I & J)].
    - assert (N6 : ~ In "inet6" options) by (rewrite <- (Kf _ W2); apply N, Af, W2). assert (Nm : ~ In "mixed" options) by (rewrite <- (Kf _ W3); apply N, Af, W3).
      change (gce_families "inet") with [V4]. destruct v; (split; [intros X|intros [X|X]]); try contradiction; try (right; exact N6); try (left; reflexivity). destruct X as [X|[]]. discriminate X.
    - apply Af in I. apply (Kf _ I) in J. pose proof (fun b Ib => One af b I Ib J) as O.
      destruct I as [<-|[<-|[<-|[]]]]; (destruct v; cbn; split; intros X; try tauto).
      + right. intros Y. specialize (O "inet6" W2 Y). discriminate O.
      + destruct X as [X|X]; [discriminate X|contradiction].
      + destruct X as [Y|Y]; [specialize (O "mixed" W3 Y)|specialize (O "inet6" W2 Y)]; discriminate O.
      + destruct X as [X|X]; [discriminate X|contradiction].
      + destruct X as [Y|Y]; [specialize (O "mixed" W3 Y); discriminate O|contradiction]. }
  clear Ca. remember (match find (fun a => str_in a o2) apis with Some a => (a, ModelGce.remove_first a o2) | None => ("ga", o2) end) as ao eqn:Eao.
  assert (Ga : ~ In "beta" options -> fst ao = "ga").
  { intros N. rewrite <- Kb, <- Kb2 in N. subst ao. destruct (find _ apis) as [a|] eqn:F; [|reflexivity]. apply find_some in F. destruct F as [F1 F2]. apply str_in_spec in F2. apply (Permutation_in _ Pp) in F1.
    destruct F1 as [<-|[<-|[]]]; [contradiction|reflexivity]. }
  assert (Kn3 : first_int (snd ao) = first_int o2).
  { subst ao. destruct (find _ apis) as [a|] eqn:F; [|reflexivity]. apply find_some in F. destruct F as [F1 _]. apply (Permutation_in _ Pp) in F1. apply first_int_other. destruct F1 as [<-|[<-|[]]]; reflexivity. }
  clear Eao. destruct ao as [api o3]. cbn [fst snd] in *.
  assert (Mx : exists mx o4, (match first_int o3 with Some (x, n) => (n, ModelGce.remove_first x o3) | None => (100, o3) end) = (mx, o4) /\ 0 <= mx /\ forall n, limit_of options n -> mx = n).
  { rewrite Kn3, Kn2, Kn. pose proof (limit_first options) as Lf. destruct (first_int_spec options) as [(s & n & Es & P & _)|(Es & _)]; rewrite Es in *; eexists _, _; (split; [reflexivity|]); (split; [lia|]); intros k Lk; symmetry; exact (Lf k Lk). }
  destruct Mx as (mx & o4 & Em & P & Lm). rewrite Em in E. destruct (65536 <? mx) eqn:E1; [discriminate E|]. destruct o4 as [|name rest]; [discriminate E|].
  destruct (is_empty name || (63 <? slen name) || negb (dash_name name) || some rest) eqn:E2; [discriminate E|]. apply ok_inj in E. subst i. cbn [hi_direction hi_af hi_ga hi_max hi_name].
  rewrite !orb_false_iff in E2. destruct E2 as (((_ & E2) & E3) & _). apply negb_false_iff in E3.
  split; [|split; [exact Af|split; [intros N; rewrite (Ga N); reflexivity|split; [exact Lm|split; [lia|apply dash_name_rfc; [exact E3|lia]]]]]].
  destruct (in_dec string_dec "EGRESS" options) as [X|X]; [exists Egress|exists Ingress]; (split; [|exact X]).
  - apply (Kw Egress). exact X.
  - apply (Kw Ingress). exact X.
Qed.

(** ** The rules of a term for the families of its header *)
Lemma hf_families_numbers i h : forall vs n b, hf_families i h n vs = Ok b -> ca_numbers n b.
Proof.
  induction vs as [|v vs IH]; intros n b E; cbn [hf_families] in E; [apply ok_inj in E; subst b; intros [|k] r H; discriminate H|].
  destruct (hf_rules _ _ _ _ _ _) as [rules|] eqn:Er; [|discriminate E]. cbn [bind] in E. destruct (hf_families i h (n + Zlen rules) vs) as [more|] eqn:Em; [|discriminate E]. cbn [bind] in E. apply ok_inj in E. subst b.
  apply ca_numbers_app; [exact (hf_rules_numbers _ _ _ _ _ _ _ Er)|exact (IH _ _ Em)].
Qed.
Lemma hf_families_in i h : forall vs n b r, hf_families i h n vs = Ok b -> In r b ->
  exists v m k rules, In v vs /\ hf_rules (hi_direction i) (hi_ga i) v m h k = Ok rules /\ In r rules.
Proof.
  induction vs as [|v vs IH]; intros n b r E I; cbn [hf_families] in E; [apply ok_inj in E; subst b; destruct I|].
  destruct (hf_rules _ _ _ _ _ _) as [rules|] eqn:Er; [|discriminate E]. cbn [bind] in E. destruct (hf_families i h (n + Zlen rules) vs) as [more|] eqn:Em; [|discriminate E]. cbn [bind] in E. apply ok_inj in E. subst b.
  apply in_app_or in I. destruct I as [I|I]; [eexists v, _, _, rules; split; [left; reflexivity|]; eauto|]. destruct (IH _ _ _ Em I) as (v' & m & k & rs & A & B). exists v', m, k, rs. split; [right; exact A|exact B].
Qed.
Lemma hf_families_each i h : forall vs n b v, hf_families i h n vs = Ok b -> In v vs ->
  exists m k rules, hf_rules (hi_direction i) (hi_ga i) v m h k = Ok rules /\ forall r, In r rules -> In r b.
Proof.
  induction vs as [|v vs IH]; intros n b v' E I; [destruct I|]. cbn [hf_families] in E.
  destruct (hf_rules _ _ _ _ _ _) as [rules|] eqn:Er; [|discriminate E]. cbn [bind] in E. destruct (hf_families i h (n + Zlen rules) vs) as [more|] eqn:Em; [|discriminate E]. cbn [bind] in E. apply ok_inj in E. subst b.
  destruct I as [<-|I]; [eexists _, _, rules; split; [exact Er|intros; apply in_or_app; auto]|]. destruct (IH _ _ _ Em I) as (m & k & rs & A & B). exists m, k, rs. split; [exact A|]. intros r J. apply in_or_app. auto.
Qed.
Lemma hf_families_says i h vs n b w w' v p o : hf_families i h n vs = Ok b -> hi_direction i = hf_word w' -> hf_fit w' h -> hf_traffic v p ->
  (exists r, In r b /\ hf_says w r p o) <-> w = w' /\ In v vs /\ hf_hit w h p /\ exists a rest, t_action (h_term h) = a :: rest /\ o = hf_action a.
Proof.
  intros E D X T. split.
  - intros (r & I & S). destruct (hf_families_in _ _ _ _ _ _ E I) as (v' & m & k & rules & Iv & Er & Ir). rewrite D in Er.
    destruct (proj1 (hf_rules_says w w' _ v v' m h k rules p o Er X T) (ex_intro _ r (conj Ir S))) as (A & <- & B). auto.
  - intros (A & Iv & B). destruct (hf_families_each _ _ _ _ _ _ E Iv) as (m & k & rules & Er & Ir). rewrite D in Er.
    destruct (proj2 (hf_rules_says w w' _ v v m h k rules p o Er X T) (conj A (conj eq_refl B))) as (r & I & S). eauto.
Qed.

(** ** Terms *)
Definition hf_block (i : hf_info) (h : hf_term) (b : list json) : Prop :=
  (b = [] /\ (t_stateless_reply (h_term h) = true \/ active_on "gcp_hf" (h_term h) = false)) \/
  (t_stateless_reply (h_term h) = false /\ active_on "gcp_hf" (h_term h) = true /\ exists n, hf_families i (hf_fill i h) n (gce_families (hi_af i)) = Ok b).
Lemma fill_active i h : active_on "gcp_hf" (h_term (hf_fill i h)) = active_on "gcp_hf" (h_term h).
Proof. unfold hf_fill. destruct h as [t tg]. destruct (hf_default_deny _); [|reflexivity]. cbn [h_term]. destruct (String.eqb _ _); destruct t; reflexivity. Qed.
Lemma named_same h : mkHfTerm (set_name (t_name (h_term h)) (h_term h)) (h_targets h) = h.
Proof. destruct h as [t tg]. destruct t. reflexivity. Qed.
Lemma hf_terms_blocks i : forall hs n rules, hf_terms i n hs = Ok rules ->
  exists bs, rules = concat bs /\ ca_numbers n rules /\ Forall2 (hf_block i) hs bs.
Proof.
  induction hs as [|h hs IH]; intros n rules E; cbn [hf_terms] in E.
  - apply ok_inj in E. subst rules. exists []. split; [reflexivity|]. split; [intros [|k] r H; discriminate H|constructor].
  - destruct (t_stateless_reply (h_term h)) eqn:Er.
    { destruct (IH _ _ E) as (bs & -> & N & F). exists ([] :: bs). split; [reflexivity|]. split; [exact N|]. constructor; [left; auto|exact F]. }
    cbv zeta in E. destruct (fix_term_length _ _ _ _ _) as [name|] eqn:En; [|discriminate E]. cbn [bind] in E. apply length_same in En. subst name. rewrite named_same, fill_active in E.
    destruct (active_on "gcp_hf" (h_term h)) eqn:Ea; cbn [negb] in E.
    + destruct (hf_families i (hf_fill i h) n (gce_families (hi_af i))) as [b|] eqn:Eb; [|discriminate E]. cbn [bind] in E. destruct (hf_terms i (n + Zlen b) hs) as [more|] eqn:Em; [|discriminate E]. cbn [bind] in E. apply ok_inj in E. subst rules.
      destruct (IH _ _ Em) as (bs & -> & N & F). exists (b :: bs). split; [reflexivity|]. split; [apply ca_numbers_app; [exact (hf_families_numbers _ _ _ _ _ Eb)|exact N]|]. constructor; [right; eauto|exact F].
    + destruct (IH _ _ E) as (bs & -> & N & F). exists ([] :: bs). split; [reflexivity|]. split; [exact N|]. constructor; [left; auto|exact F].
Qed.
Lemma hf_filters_blocks afs apis : forall fs fields n cost before out, hf_filters afs apis fields n cost before fs = Ok out ->
  exists bs, snd (fst out) = concat bs /\ ca_numbers n (snd (fst out)) /\
    Forall2 (fun oh b => exists i, hf_options afs apis (fst oh) = Ok i /\ hf_block i (snd oh) b) (all_terms fs) bs.
Proof.
  induction fs as [|[options hs] fs IH]; intros fields n cost before out E; cbn [hf_filters] in E.
  - apply ok_inj in E. subst out. exists []. split; [reflexivity|]. split; [intros [|k] r H; discriminate H|constructor].
  - destruct (hf_options afs apis options) as [i|] eqn:Ei; [|discriminate E]. cbn [bind] in E. destruct (negb (before =? -1) && _); [discriminate E|]. cbv zeta in E.
    destruct (match assoc _ fields with Some _ => _ | None => _ end); [discriminate E|]. destruct (hf_terms i n hs) as [rules|] eqn:Et; [|discriminate E]. cbn [bind] in E.
    destruct (match fs with [] => _ | _ => _ end); [discriminate E|]. destruct (hf_filters _ _ _ (n + Zlen rules) _ _ fs) as [more|] eqn:Em; [|discriminate E]. cbn [bind] in E. apply ok_inj in E. subst out. cbn [fst snd].
    destruct (hf_terms_blocks _ _ _ _ Et) as (b1 & E1 & N1 & F1). destruct (IH _ _ _ _ _ Em) as (b2 & E2 & N2 & F2).
    exists (b1 ++ b2). split; [rewrite concat_app, E1, E2; reflexivity|]. split; [apply ca_numbers_app; assumption|].
    unfold all_terms. cbn [flat_map fst snd]. apply Forall2_app; [|exact F2]. clear - F1 Ei. induction F1; cbn [map]; constructor; [exists i; auto|assumption].
Qed.

(** ** Numbers *)
Theorem hf_numbered afs apis fs policy rules : hf_policy afs apis fs = Ok [policy] -> rules_of policy rules ->
  forall i r, nth_error rules i = Some r -> path ["priority"] r = Some (JNum (1 + Z.of_nat i)).
Proof.
  intros E R. unfold hf_policy in E. destruct (check_tokens _ _ _); [|discriminate E]. cbn [bind] in E. destruct (hf_filters _ _ _ _ _ _ _) as [out|] eqn:Ef; [|discriminate E]. cbn [bind] in E.
  destruct (hf_filters_blocks _ _ _ _ _ _ _ _ Ef) as (bs & _ & N & _). destruct fs as [|f fs]; [discriminate E|]. apply ok_inj in E.
  assert (policy = JDict (("rules", JList (snd (fst out))) :: fst (fst out))) by congruence. subst policy. unfold rules_of in R. cbn [path assoc String.eqb Ascii.eqb Bool.eqb] in R.
  assert (rules = snd (fst out)) by congruence. subst rules. exact N.
Qed.
Lemma hf_first w rs p o : ca_numbers 1 rs -> (hf_decides w rs p o <-> first_says (fun r o => hf_says w r p o) rs o).
Proof.
  intros N. split.
  - intros (r & n & I & S & P & L). apply In_nth_error in I. destruct I as (i & I). rewrite (N i r I) in P. assert (En : n = 1 + Z.of_nat i) by congruence. subst n. clear P.
    destruct (nth_error_split rs i I) as (l1 & l2 & -> & Len). exists l1, r, l2. split; [reflexivity|]. split; [exact S|].
    intros y u Iy Sy. apply In_nth_error in Iy. destruct Iy as (k & Iy). assert (Lk : (k < List.length l1)%nat) by (apply nth_error_Some; congruence).
    assert (Iy' : nth_error (l1 ++ r :: l2) k = Some y) by (rewrite nth_error_app1 by exact Lk; exact Iy).
    apply (L y u (1 + Z.of_nat k)); [exact (nth_error_In _ _ Iy')|exact Sy|apply (N k y Iy')|lia].
  - intros (l1 & e & l2 & E & S & L). assert (I : nth_error rs (List.length l1) = Some e) by (rewrite E, nth_error_app2, Nat.sub_diag by lia; reflexivity).
    exists e, (1 + Z.of_nat (List.length l1)). split; [exact (nth_error_In _ _ I)|]. split; [exact S|]. split; [apply (N _ _ I)|].
    intros r' o' n' I' S' P' Ln. apply In_nth_error in I'. destruct I' as (k & I'). rewrite (N k r' I') in P'. assert (En : n' = 1 + Z.of_nat k) by congruence. subst n'. clear P'.
    destruct (Nat.eq_dec k (List.length l1)) as [->|Nk].
    + assert (r' = e) by congruence. subst r'. destruct S as (_ & S), S' as (_ & S'). congruence.
    + apply (L r' o'); [|exact S']. rewrite E, nth_error_app1 in I' by lia. exact (nth_error_In _ _ I').
Qed.

(** ** Decisions *)
Lemma fill_deny_near w h : hf_default_deny h = true -> fst (near_side w (h_term h)) = [].
Proof.
  intros H. set (g := mkGceTerm (h_term h) None [] []). assert (D : is_default_deny g = true).
  { unfold hf_default_deny in H. unfold is_default_deny. cbn [g_term g g_source_accounts g_target_accounts g_priority some negb]. rewrite !andb_true_r. apply andb_true_iff in H. apply H. }
  destruct (default_deny_fields g D) as (_ & _ & _ & [[N1 _] [N2 _] _ _ _ _]). destruct w; assumption.
Qed.
Lemma fill_same i h : let u := hf_fill i h in h_targets u = h_targets h /\ t_action (h_term u) = t_action (h_term h) /\ t_source_prefix (h_term u) = t_source_prefix (h_term h) /\ t_destination_prefix (h_term u) = t_destination_prefix (h_term h) /\
  t_protocol (h_term u) = t_protocol (h_term h) /\ t_destination_port (h_term u) = t_destination_port (h_term h) /\ t_source_port (h_term u) = t_source_port (h_term h) /\ t_option (h_term u) = t_option (h_term h) /\
  t_source_tag (h_term u) = t_source_tag (h_term h) /\ t_destination_tag (h_term u) = t_destination_tag (h_term h).
Proof. cbv zeta. unfold hf_fill. destruct h as [t tg]. destruct (hf_default_deny _); [|repeat split]. cbn [h_term h_targets]. destruct (String.eqb _ _); destruct t; repeat split. Qed.
Lemma fill_near i h w : hi_direction i = hf_word w -> (hf_fill i h = h) \/ (fst (near_side w (h_term h)) = [] /\ fst (near_side w (h_term (hf_fill i h))) = map any_ip (gce_families (hi_af i))).
Proof.
  intros D. unfold hf_fill. destruct (hf_default_deny h) eqn:H; [|left; reflexivity]. right. split; [exact (fill_deny_near w h H)|]. rewrite D. destruct w; cbn [h_term hf_word String.eqb Ascii.eqb Bool.eqb]; destruct (h_term h); reflexivity.
Qed.
Lemma fill_fit_hf i h w : hi_direction i = hf_word w -> hf_term_ok w h -> hf_fit w (hf_fill i h).
Proof.
  intros D K. destruct (fill_same i h) as (F1 & _ & F3 & F4 & F5 & F6 & _). constructor; rewrite ?F1, ?F3, ?F4, ?F5, ?F6.
  - destruct (fill_near i h w D) as [->|(_ & ->)]; [exact (ht_addresses _ _ K)|apply any_valid].
  - destruct (fill_near i h w D) as [->|(_ & ->)]; [exact (ht_style _ _ K)|]. intros n I _. apply in_map_iff in I. destruct I as (v & <- & _). apply any_style.
  - exact (ht_targets _ _ K).
  - exact (ht_prefix _ _ K).
  - exact (ht_protocol _ _ K).
  - exact (ht_ports _ _ K).
Qed.
Lemma fill_hit i h w v p : hi_direction i = hf_word w -> In v (gce_families (hi_af i)) -> hf_traffic v p -> hf_hit w (hf_fill i h) p <-> hf_hit w h p.
Proof.
  intros D I T. destruct (fill_same i h) as (_ & _ & _ & _ & F5 & F6 & _). unfold hf_hit. rewrite F5, F6. apply and_iff_compat_r. destruct (fill_near i h w D) as [->|(N & ->)]; [reflexivity|]. rewrite N.
  split; [left; reflexivity|]. intros _. right. exists (any_ip v). split; [apply in_map, I|]. destruct (hq_family _ _ T) as (F1 & F2 & A1 & A2). unfold addressable in A1, A2.
  destruct w; cbn [peer_of]; [rewrite (surjective_pairing (p_src p)), F1|rewrite (surjective_pairing (p_dst p)), F2]; apply any_covers; [rewrite F1 in A1; exact A1|rewrite F2 in A2; exact A2].
Qed.
Lemma hf_meant t p : p_platform p = "gcp_hf" -> term_matches t p -> meant_for "gcp_hf" t.
Proof.
  intros P (_ & _ & _ & _ & _ & _ & _ & (A & B & _) & _). rewrite P in *. split.
  - destruct A as [A|(q & I & <-)]; auto.
  - intros I. exact (B _ I eq_refl).
Qed.
Lemma hf_matches_hit afs apis fs out options hs h w v i b p : check_tokens "gcp_hf" hf_tokens (map (fun f => (["gcp_hf"], map h_term (snd f))) fs) = Ok tt ->
  hf_filters afs apis [] 1 0 (-1) fs = Ok out -> In (options, hs) fs -> In h hs -> meant_for "gcp_hf" (h_term h) -> hf_term_ok w h -> hf_traffic v p ->
  hf_block i h b -> (term_matches (h_term h) p <-> hf_hit w h p) /\ forall a rest, t_action (h_term h) = a :: rest -> In a ["accept"; "deny"; "next"].
Proof.
  intros Ck _ If Ih Mf K T B. set (t := h_term h) in *.
  assert (V : exists n v' m k rules, hf_families i (hf_fill i h) n (gce_families (hi_af i)) = Ok b /\ hf_rules (hi_direction i) (hi_ga i) v' m (hf_fill i h) k = Ok rules).
  { destruct B as [(_ & [X|X])|(_ & _ & n & E)]; [pose proof (ht_reply _ _ K); fold t in H, X; congruence|apply active_on_spec in Mf; fold t in X; congruence|].
    assert (Iv : exists v', In v' (gce_families (hi_af i))) by (unfold gce_families; destruct (String.eqb _ _); [|destruct (String.eqb _ _)]; eexists; left; reflexivity). destruct Iv as (v' & Iv).
    destruct (hf_families_each _ _ _ _ _ _ E Iv) as (m & k & rules & Er & _). exists n, v', m, k, rules. auto. }
  destruct V as (_ & v' & m & k & rules & _ & Er). destruct (hf_rules_shape _ _ _ _ _ _ _ Er) as (V & _). clear Er.
  destruct (fill_same i h) as (_ & _ & _ & _ & _ & _ & F7 & F8 & F9 & F10). fold t in F7, F8, F9, F10. unfold hf_validate in V. cbv zeta in V. rewrite F7, F8, F9, F10 in V.
  destruct (some (t_destination_tag t) || some (t_source_tag t)) eqn:V1; [discriminate V|]. destruct (256 <? _)%nat; [discriminate V|]. destruct (negb _); [discriminate V|].
  destruct (some (t_source_port t)) eqn:V2; [discriminate V|]. destruct (some (t_option t)) eqn:V3; [discriminate V|]. clear V.
  apply orb_false_iff in V1. destruct V1 as [V0 V1]. apply some_false in V0, V1, V2, V3.
  assert (If' : In (["gcp_hf"], map h_term hs) (map (fun f => (["gcp_hf"], map h_term (snd f))) fs)) by (apply in_map_iff; exists (options, hs); auto).
  assert (It : In t (map h_term hs)) by (apply in_map, Ih).
  pose proof (unsupported_not_set "gcp_hf" hf_tokens _ _ _ t Ck If' (or_introl eq_refl) It Mf) as U.
  assert (N : forall s, str_in s (supported hf_tokens) = false -> ~ In s (supported hf_tokens)) by (intros s Hs X; apply str_in_spec in X; congruence).
  destruct U as (U1 & U2 & _ & Us & _ & Ud & U3 & _ & _ & _ & U4 & _ & _ & U6 & _ & U8 & U9 & U10 & U11 & U12 & U13 & U14 & U15 & U16 & U17 & U18 & U19 & U20 & U21 & U22 & U23 & U24 & U25).
  destruct (ht_warned _ _ K) as (K1 & K4). destruct (ht_texts _ _ K) as [K5 K6]. destruct (ht_prefix _ _ K) as [K7 K8]. pose proof (ht_far _ _ K) as K9. fold t in K1, K4, K5, K6, K7, K8, K9.
  assert (O : forall {A} (o : option A) x, o = None \/ o = Some x -> o <> Some x -> o = None) by (intros A o x [X|X] Y; [exact X|contradiction]).
  assert (Tx : forall o, o = None \/ o = Some "" -> forall n, text_range o n) by (intros o [->| ->] n; [exact Logic.I|left; reflexivity]).
  assert (Qt : quiet "gcp_hf" t).
  { constructor.
    - split; [apply U1|apply U2]; apply N; reflexivity.
    - apply U3, N; reflexivity.
    - apply U4, N; reflexivity.
    - split; [exact K7|]. split; [apply U6, N; reflexivity|]. split; [exact K8|apply U8, N; reflexivity].
    - auto.
    - split; [apply U9, N; reflexivity|]. split; [apply U10, N; reflexivity|apply U11, N; reflexivity].
    - split; [apply Tx, U21, N; reflexivity|]. split; [apply Tx, U22, N; reflexivity|].
      split; [apply Tx, U23, N; reflexivity|]. exact (O _ _ _ (U20 (N "ttl" eq_refl)) K4).
    - apply U13, N; reflexivity.
    - split; [exact Mf|]. split; [apply U18|apply U19]; apply N; reflexivity.
    - split; [apply U14, N; reflexivity|]. split; [apply U15, N; reflexivity|]. split; [apply U16, N; reflexivity|]. split; [apply U17, N; reflexivity|].
      split; [exact (O _ _ _ (U24 (N "source_interface" eq_refl)) K5)|]. split; [exact (O _ _ _ (U25 (N "destination_interface" eq_refl)) K6)|exact K1]. }
  assert (Es : t_source_address_exclude t = []) by (apply Us, N; reflexivity). assert (Ed : t_destination_address_exclude t = []) by (apply Ud, N; reflexivity). assert (Ei : t_icmp_type t = []) by (apply U12, N; reflexivity).
  split.
  - rewrite (quiet_matches "gcp_hf" t p Qt (hq_platform _ _ T)). rewrite Es, Ed, Ei, V2, V3. unfold hf_hit. fold t.
    assert (S : forall l x, side_matches l [] x <-> l = [] \/ covered l x).
    { intros l x. unfold side_matches. split; [intros [X _]; exact X|]. intros X. split; [exact X|]. intros (n & [] & _). }
    pose proof (S (t_source_address t) (p_src p)) as S1. pose proof (S (t_destination_address t) (p_dst p)) as S2. clear S. clearbody t. clear - S1 S2 K9.
    destruct w; cbn [near_side far_addresses fst peer_of] in *; (split; [intros (A1 & A2 & A3 & A4 & A5 & A6 & A7); split; [first [exact (proj1 S1 A1)|exact (proj1 S2 A2)]|split; assumption]|]).
    + intros (A1 & A3 & A5). split; [apply S1, A1|]. split; [apply S2; left; exact K9|]. split; [exact A3|]. split; [left; reflexivity|]. split; [exact A5|]. split; [intros o []|left; reflexivity].
    + intros (A1 & A3 & A5). split; [apply S1; left; exact K9|]. split; [apply S2, A1|]. split; [exact A3|]. split; [left; reflexivity|]. split; [exact A5|]. split; [intros o []|left; reflexivity].
  - intros a rest Ea. destruct (sub_tokens_listed "gcp_hf" hf_tokens _ _ _ t ["accept"; "deny"; "next"] Ck If' (or_introl eq_refl) It Mf) as (_ & Sa & _); [intros [X|[X|[X|[]]]]; discriminate X|].
    apply (Sa eq_refl). rewrite Ea. left. reflexivity.
Qed.
Lemma hf_outcome_iff a o : In a ["accept"; "deny"; "next"] -> (hf_outcome a o <-> o = hf_action a).
Proof.
  intros [<-|[<-|[<-|[]]]]; unfold hf_outcome, hf_action; cbn [assoc String.eqb Ascii.eqb Bool.eqb]; split.
  all: try (intros [(X & Y)|[(X & Y)|(X & Y)]]; congruence). all: intros ->; auto.
Qed.
Theorem hf_decides_as_policy afs apis fs policy rules w v p outcome : hf_policy afs apis fs = Ok [policy] -> rules_of policy rules ->
  Permutation afs family_words -> Permutation apis ["beta"; "ga"] ->
  (forall options hs, In (options, hs) fs -> one_family_word options) ->
  (forall options hs h, In (options, hs) fs -> header_way options w -> In h hs -> meant_for "gcp_hf" (h_term h) -> hf_term_ok w h) ->
  hf_traffic v p ->
  (hf_decides w rules p outcome <-> hf_policy_decides w v fs p outcome).
Proof.
  intros E R Pa Pp One K T. pose proof (hf_numbered _ _ _ _ _ E R) as Nm. unfold hf_policy in E. destruct (check_tokens _ _ _) as [[]|] eqn:Ck; [|discriminate E]. cbn [bind] in E. destruct (hf_filters _ _ _ _ _ _ _) as [out|] eqn:Ef; [|discriminate E]. cbn [bind] in E.
  destruct (hf_filters_blocks _ _ _ _ _ _ _ _ Ef) as (bs & Eb & _ & F). destruct fs as [|f0 fs0] eqn:Efs; [discriminate E|]. rewrite <- Efs in *. apply ok_inj in E.
  assert (policy = JDict (("rules", JList (snd (fst out))) :: fst (fst out))) by congruence. subst policy. unfold rules_of in R. cbn [path assoc String.eqb Ascii.eqb Bool.eqb] in R.
  assert (rules = snd (fst out)) by congruence. subst rules. clear R E. rewrite hf_first by exact Nm. unfold hf_policy_decides. rewrite Eb. apply first_says_blocks.
  assert (Ia : forall oh, In oh (all_terms fs) -> exists hs, In (fst oh, hs) fs /\ In (snd oh) hs).
  { intros oh I. unfold all_terms in I. apply in_flat_map in I. destruct I as ((o & hs) & I & J). cbn [fst snd] in J. apply in_map_iff in J. destruct J as (h & <- & J). exists hs. auto. }
  clear Nm Eb Efs. revert Ia F. generalize (all_terms fs) as ts. intros ts Ia F. induction F as [|[options h] b ts bs (i & Ei & B) F IH]; [constructor|].
  constructor; [|apply IH; intros oh I; apply Ia; right; exact I]. clear IH F. destruct (Ia _ (or_introl eq_refl)) as (hs & If & Ih). cbn [fst snd] in *.
  destruct (hf_options_spec _ _ _ _ Ei Pa Pp) as ((w' & D & Hw') & Fam & _). specialize (Fam (One _ _ If) v).
  assert (Ww : header_way options w <-> w = w') by (destruct w, w'; cbn [header_way] in *; split; intros X; try reflexivity; try discriminate X; try exact Hw'; contradiction).
  assert (Tm : term_matches (h_term h) p -> meant_for "gcp_hf" (h_term h)) by (apply hf_meant; exact (hq_platform _ _ T)).
  split.
  - intros o. split.
    + intros (r & Ir & S). assert (Bk := B). destruct B as [(-> & _)|(_ & Ea & n & Eb)]; [destruct Ir|]. apply active_on_spec in Ea.
      destruct (hf_families_in _ _ _ _ _ _ Eb Ir) as (v' & m & k & rs & _ & Er & Ir'). rewrite D in Er. pose proof (hf_rules_way _ _ _ _ _ _ _ _ _ _ _ Er Ir' S) as Hw. rewrite Hw in *. clear Er.
      assert (Kh : hf_term_ok w' h) by (apply (K options hs); auto).
      destruct (hf_matches_hit afs apis fs out options hs h w' v i b p Ck Ef If Ih Ea Kh T Bk) as (M & Act).
      destruct (proj1 (hf_families_says _ _ _ _ _ w' w' v p o Eb D (fill_fit_hf _ _ _ D Kh) T) (ex_intro _ r (conj Ir S))) as (_ & Iv & Hh & a & rest & Aa & ->).
      split; [exact Hw'|]. split; [apply Fam, Iv|]. split; [apply M, (fill_hit i h w' v p D Iv T), Hh|]. destruct (fill_same i h) as (_ & Fa & _). rewrite Fa in Aa. exists a, rest. split; [exact Aa|]. apply hf_outcome_iff; [exact (Act _ _ Aa)|reflexivity].
    + intros (Hw & Hv & M & a & rest & Aa & Oo). pose proof (Tm M) as Ea. apply Ww in Hw. subst w'. assert (Kh : hf_term_ok w h) by (apply (K options hs); auto).
      destruct (hf_matches_hit afs apis fs out options hs h w v i b p Ck Ef If Ih Ea Kh T B) as (Mh & Act). apply Fam in Hv.
      destruct B as [(_ & [X|X])|(_ & _ & n & Eb)]; [pose proof (ht_reply _ _ Kh); congruence|apply active_on_spec in Ea; congruence|].
      apply (hf_families_says _ _ _ _ _ w w v p o Eb D (fill_fit_hf _ _ _ D Kh) T). split; [reflexivity|]. split; [exact Hv|]. split; [apply (fill_hit i h w v p D Hv T), Mh, M|].
      destruct (fill_same i h) as (_ & Fa & _). rewrite Fa. exists a, rest. split; [exact Aa|]. apply (hf_outcome_iff a o (Act _ _ Aa)), Oo.
  - intros o o' (_ & _ & _ & a & rest & A & O1) (_ & _ & _ & a' & rest' & A' & O2). assert (a' = a) by congruence. subst a'. unfold hf_outcome in *.
    destruct O1 as [(? & ?)|[(? & ?)|(? & ?)]], O2 as [(? & ?)|[(? & ?)|(? & ?)]]; congruence.
Qed.
