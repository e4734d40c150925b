(** Proofs about the OpenConfig generator: access lists, names, numbers. *)
From Coq Require Import Lia ZifyBool ZifyNat Permutation.
From Verif Require Import SpecOpenConfig BaseFacts PyStrFacts IPFacts CollapseProofs ExcludeProofs PolicyProofs GenProofs GenProofs2 TextProofs IptText CiscoProofs CiscoProofs2 CiscoAcl GceProofs GceRules GceDecide QuietTerm OpenConfigProofs.
Local Open Scope string_scope.
Local Open Scope list_scope.
Local Open Scope Z_scope.

(** ** Terms are changed in place *)
Record same_rest (t t1 : term) : Prop := {
  sr_name : t_name t1 = t_name t; sr_action : t_action t1 = t_action t; sr_comment : t_comment t1 = t_comment t;
  sr_option : t_option t1 = t_option t; sr_sport : t_source_port t1 = t_source_port t; sr_dport : t_destination_port t1 = t_destination_port t;
  sr_platform : t_platform t1 = t_platform t; sr_platform_exclude : t_platform_exclude t1 = t_platform_exclude t;
  sr_expiration : t_expiration t1 = t_expiration t; sr_protocol : t_protocol t1 = t_protocol t; sr_icmp : t_icmp_type t1 = t_icmp_type t;
  sr_sexc : t_source_address_exclude t1 = t_source_address_exclude t;
  sr_dexc : t_destination_address_exclude t1 = t_destination_address_exclude t; sr_aexc : t_address_exclude t1 = t_address_exclude t }.
Lemma same_rest_refl t : same_rest t t. Proof. constructor; reflexivity. Qed.
Lemma same_rest_trans a b c : same_rest a b -> same_rest b c -> same_rest a c.
Proof. intros [] []. constructor; congruence. Qed.
Lemma flatten_rest t t1 : flatten_all t = Ok t1 -> same_rest t t1.
Proof.
  intros H. unfold flatten_all in H. cbv zeta in H.
  assert (R0 : same_rest t (set_flattened true t)) by (destruct t; constructor; reflexivity). revert R0 H. generalize (set_flattened true t). intros u R0 H.
  destruct (negb _).
  - apply ok_inj in H. subst t1. apply (same_rest_trans _ _ _ R0).
    assert (X : same_rest u (set_flattened_addr (t_address u) u)) by (destruct u; constructor; reflexivity). apply (same_rest_trans _ _ _ X). clear X.
    generalize (set_flattened_addr (t_address u) u). intros w.
    assert (X : same_rest w (set_flattened_daddr (t_destination_address u) w)) by (destruct w; constructor; reflexivity). apply (same_rest_trans _ _ _ X). clear X.
    generalize (set_flattened_daddr (t_destination_address u) w). intros w'. destruct w'; constructor; reflexivity.
  - match type of H with bind ?m _ = _ => destruct m as [u2|] eqn:E; [|discriminate H] end. cbn [bind] in H.
    assert (R1 : same_rest t u2).
    { apply (same_rest_trans _ _ _ R0). destruct (some (t_source_address_exclude u)); [|apply ok_inj in E; subst; apply same_rest_refl].
      destruct (address_list_exclude _ _ _) as [l|]; [|discriminate E]. cbn [bind] in E. apply ok_inj in E. subst u2. destruct u; constructor; reflexivity. }
    clear E R0 u. match type of H with bind ?m _ = _ => destruct m as [u3|] eqn:E; [|discriminate H] end. cbn [bind] in H.
    assert (R2 : same_rest t u3).
    { apply (same_rest_trans _ _ _ R1). destruct (some (t_destination_address_exclude u2)); [|apply ok_inj in E; subst; apply same_rest_refl].
      destruct (address_list_exclude _ _ _) as [l|]; [|discriminate E]. cbn [bind] in E. apply ok_inj in E. subst u3. destruct u2; constructor; reflexivity. }
    clear E R1 u2. apply (same_rest_trans _ _ _ R2). destruct (some (t_address_exclude u3)); [|apply ok_inj in H; subst; apply same_rest_refl].
    destruct (address_list_exclude _ _ _) as [l|]; [|discriminate H]. cbn [bind] in H. apply ok_inj in H. subst t1. destruct u3; constructor; reflexivity.
Qed.
Lemma flatten_done t t1 : flatten_all t = Ok t1 -> t_address_exclude t = [] ->
  excludable (t_source_address t) (t_source_address_exclude t) -> excludable (t_destination_address t) (t_destination_address_exclude t) ->
  left_of (t_source_address t) (t_source_address_exclude t) (t_source_address t1) /\
  left_of (t_destination_address t) (t_destination_address_exclude t) (t_destination_address t1).
Proof.
  intros H A S D. destruct (t_source_address_exclude t) as [|a l] eqn:E1; [destruct (t_destination_address_exclude t) as [|b m] eqn:E2|].
  - unfold flatten_all in H. cbv zeta in H. assert (R0 : same_rest t (set_flattened true t)) by (destruct t; constructor; reflexivity).
    rewrite (sr_sexc _ _ R0), (sr_dexc _ _ R0), (sr_aexc _ _ R0), A, E1, E2 in H. cbn [some orb negb] in H. apply ok_inj in H.
    assert (X : t_source_address t1 = t_source_address t /\ t_destination_address t1 = t_destination_address t).
    { subst t1. clear. generalize (t_address (set_flattened true t)) (t_destination_address (set_flattened true t)) (t_source_address (set_flattened true t)).
      intros l1 l2 l3. assert (Y : forall u, t_source_address (set_flattened_saddr l3 u) = t_source_address u /\ t_destination_address (set_flattened_saddr l3 u) = t_destination_address u) by (intros []; split; reflexivity).
      assert (Y2 : forall u, t_source_address (set_flattened_daddr l2 u) = t_source_address u /\ t_destination_address (set_flattened_daddr l2 u) = t_destination_address u) by (intros []; split; reflexivity).
      assert (Y3 : forall u, t_source_address (set_flattened_addr l1 u) = t_source_address u /\ t_destination_address (set_flattened_addr l1 u) = t_destination_address u) by (intros []; split; reflexivity).
      rewrite (proj1 (Y _)), (proj2 (Y _)), (proj1 (Y2 _)), (proj2 (Y2 _)), (proj1 (Y3 _)), (proj2 (Y3 _)). destruct t; split; reflexivity. }
    destruct X as [-> ->]. split; (split; [assumption|]; split; [intros x; rewrite covered_nil; tauto|reflexivity]).
  - rewrite <- E1 in S |- *. rewrite <- E2 in D |- *. apply (flatten_sides t t1 H A S D). right. rewrite E2. discriminate.
  - rewrite <- E1 in S |- *. apply (flatten_sides t t1 H A S D). left. rewrite E1. discriminate.
Qed.

Definition fair (t : term) : Prop := t_address_exclude t = [] /\ subtractable (t_source_address t) (t_source_address_exclude t) /\
  subtractable (t_destination_address t) (t_destination_address_exclude t).
Record kept_as (t : term) (x : term * list pval) : Prop := {
  ka_same : same_rest t (fst x);
  ka_protos : Forall2 kept_proto (t_protocol t) (snd x);
  ka_sides : fair t -> kept_side (t_source_address t) (t_source_address_exclude t) (t_source_address (fst x)) /\
    kept_side (t_destination_address t) (t_destination_address_exclude t) (t_destination_address (fst x)) }.
Lemma kept_left inc exc r r' : kept_side inc exc r -> left_of r exc r' -> kept_side inc exc r' /\ done_side inc exc r'.
Proof.
  intros (E & C & N) (E' & C' & N').
  assert (D : forall x, covered r' x <-> covered inc x /\ ~ covered exc x) by (intros x; rewrite C', C; reflexivity).
  assert (Nn : exc = [] -> r' = inc) by (intros X; rewrite (N' X); exact (N X)).
  split; (split; [|split; [|exact Nn]]); [exact E'| |apply E'|exact D]. intros x. rewrite D. tauto.
Qed.
Lemma kept_start t : kept_as t (t, map PName (t_protocol t)).
Proof.
  constructor; cbn [fst snd]; [apply same_rest_refl| |].
  - induction (t_protocol t) as [|s l IH]; cbn [map]; constructor; [left; reflexivity|exact IH].
  - intros (_ & S & D). apply subtractable_excludable in S, D. split; (split; [assumption|]; split; [intros x; reflexivity|reflexivity]).
Qed.
Lemma init_protocols_kept names ps qs : Forall2 kept_proto names ps -> init_protocols ps = Ok qs -> Forall2 kept_proto names qs.
Proof.
  intros F E. unfold init_protocols in E. destruct (forallb _ ps); [|discriminate E]. apply ok_inj in E. subst qs.
  induction F as [|s q names ps K F IH]; cbn [map]; constructor; [|exact IH].
  destruct K as [->|[-> ->]]; [|right; auto]. destruct (String.eqb_spec s "ipip") as [->|N]; [right; auto|left; reflexivity].
Qed.
Lemma oc_init_kept t x x1 : kept_as t x -> oc_init x = Ok x1 -> kept_as t x1 /\
  (fair t -> done_side (t_source_address t) (t_source_address_exclude t) (t_source_address (fst x1)) /\
    done_side (t_destination_address t) (t_destination_address_exclude t) (t_destination_address (fst x1))).
Proof.
  intros [K1 K2 K3] E. unfold oc_init in E. destruct (init_protocols (snd x)) as [qs|] eqn:Ep; [|discriminate E]. cbn [bind] in E.
  destruct (flatten_all (fst x)) as [t1|] eqn:Ef; [|discriminate E]. cbn [bind] in E. apply ok_inj in E. subst x1. cbn [fst snd].
  assert (R : same_rest t t1) by exact (same_rest_trans _ _ _ K1 (flatten_rest _ _ Ef)).
  assert (S : fair t -> (kept_side (t_source_address t) (t_source_address_exclude t) (t_source_address t1) /\ done_side (t_source_address t) (t_source_address_exclude t) (t_source_address t1)) /\
     kept_side (t_destination_address t) (t_destination_address_exclude t) (t_destination_address t1) /\ done_side (t_destination_address t) (t_destination_address_exclude t) (t_destination_address t1)).
  { intros Fr. destruct (K3 Fr) as [Ks Kd]. destruct (flatten_done _ _ Ef) as [Ls Ld].
    - rewrite (sr_aexc _ _ K1). apply Fr.
    - rewrite (sr_sexc _ _ K1). apply Ks.
    - rewrite (sr_dexc _ _ K1). apply Kd.
    - rewrite (sr_sexc _ _ K1) in Ls. rewrite (sr_dexc _ _ K1) in Ld. split; eapply kept_left; eassumption. }
  split.
  - constructor; cbn [fst snd]; [exact R|exact (init_protocols_kept _ _ _ K2 Ep)|]. intros Fr. destruct (S Fr) as [[A _] [B _]]. auto.
  - intros Fr. destruct (S Fr) as [[_ A] [_ B]]. auto.
Qed.

(** ** The entries of a list *)
Definition numbers_from (seq : Z) (es : list json) (seq' : Z) : Prop :=
  seq' = seq + Z.of_nat (List.length es) /\
  forall i e, nth_error es i = Some e -> path ["sequence-id"] e = Some (JNum (seq + 1 + Z.of_nat i)) /\
    path ["config"; "sequence-id"] e = Some (JNum (seq + 1 + Z.of_nat i)).
Lemma numbers_nil seq : numbers_from seq [] seq.
Proof. split; [cbn; lia|]. intros [|i] e H; discriminate H. Qed.
Lemma numbers_app a es b fs c : numbers_from a es b -> numbers_from b fs c -> numbers_from a (es ++ fs) c.
Proof.
  intros [E1 N1] [E2 N2]. split; [rewrite app_length; lia|]. intros i e H. destruct (Nat.lt_ge_cases i (List.length es)) as [L|L].
  - rewrite nth_error_app1 in H by exact L. exact (N1 i e H).
  - rewrite nth_error_app2 in H by exact L. destruct (N2 _ e H) as [A B]. rewrite A, B. split; do 2 f_equal; lia.
Qed.
Lemma numbered_numbers v desc act : forall rs seq, numbers_from seq (numbered (oc_entry v desc act) seq rs) (seq + Z.of_nat (List.length rs)).
Proof.
  induction rs as [|r rs IH]; intros seq; cbn [numbered].
  - replace (seq + Z.of_nat (List.length [])) with seq by (cbn; lia). apply numbers_nil.
  - change (oc_entry v desc act r (seq + 1) :: numbered (oc_entry v desc act) (seq + 1) rs) with ([oc_entry v desc act r (seq + 1)] ++ numbered (oc_entry v desc act) (seq + 1) rs).
    replace (seq + Z.of_nat (List.length (r :: rs))) with (seq + 1 + Z.of_nat (List.length rs)) by (cbn [List.length]; lia).
    apply numbers_app with (seq + 1); [|apply IH]. split; [cbn; lia|]. intros [|i] e H; [|destruct i; discriminate H]. injection H as <-.
    destruct (entry_paths v desc act r (seq + 1)) as (_ & _ & _ & _ & _ & _ & _ & _ & _ & A & B). rewrite A, B. split; do 2 f_equal; lia.
Qed.
Definition oc_description (t : term) : string := append "[" (append (t_name t) (append "]: " (join " " (t_comment t)))).
Definition visible (today : Z) (t : term) : Prop := meant_for "openconfig" t /\ in_force today t.
Record block_of (v : ver) (t : term) (b : list json) : Prop := {
  bk_made : exists a r act rs seq ss ds ps, t_action t = a :: r /\ assoc a oc_actions = Some act /\
    oc_rules v t (address_of_version ss (Some v)) (address_of_version ds (Some v)) ps = Ok rs /\
    b = numbered (oc_entry v (oc_description t) act) seq rs /\ Forall2 kept_proto (t_protocol t) ps /\
    (fair t -> done_side (t_source_address t) (t_source_address_exclude t) ss /\ done_side (t_destination_address t) (t_destination_address_exclude t) ds) }.
Definition term_block (v : ver) (today : Z) (t : term) (b : list json) : Prop :=
  (~ visible today t /\ b = []) \/ (visible today t /\ block_of v t b).
Lemma skipped_visible today t :
  if str_in "openconfig" (t_platform_exclude t) || (some (t_platform t) && negb (str_in "openconfig" (t_platform t))) || expired today t
  then ~ visible today t else visible today t.
Proof.
  unfold visible, meant_for, in_force, expired.
  destruct (str_in "openconfig" (t_platform_exclude t)) eqn:E1; cbn [orb].
  - intros ((_ & X) & _). apply X, str_in_spec, E1.
  - destruct (t_platform t) as [|q l] eqn:E2; cbn [some andb orb].
    + destruct (t_expiration t) as [d|]; [destruct (Z.leb_spec d today) as [L|L]|].
      * intros (_ & X). specialize (X d eq_refl). lia.
      * split; [split; [left; reflexivity|intros X; apply str_in_spec in X; congruence]|]. intros d' X. injection X as <-. exact L.
      * split; [split; [left; reflexivity|intros X; apply str_in_spec in X; congruence]|]. intros d' X. discriminate X.
    + destruct (str_in "openconfig" (q :: l)) eqn:E3; cbn [negb orb].
      * apply str_in_spec in E3. destruct (t_expiration t) as [d|]; [destruct (Z.leb_spec d today) as [L|L]|].
        -- intros (_ & X). specialize (X d eq_refl). lia.
        -- split; [split; [right; exact E3|intros X; apply str_in_spec in X; congruence]|]. intros d' X. injection X as <-. exact L.
        -- split; [split; [right; exact E3|intros X; apply str_in_spec in X; congruence]|]. intros d' X. discriminate X.
      * intros (([X|X] & _) & _); [discriminate X|]. apply str_in_spec in X. congruence.
Qed.
Lemma oc_term_block v seq t x1 seq' es : kept_as t x1 ->
  (fair t -> done_side (t_source_address t) (t_source_address_exclude t) (t_source_address (fst x1)) /\
    done_side (t_destination_address t) (t_destination_address_exclude t) (t_destination_address (fst x1))) ->
  oc_term v seq x1 = Ok (seq', es) -> block_of v t es /\ numbers_from seq es seq'.
Proof.
  intros [[K1 K2 K3 K4 K5 K6 _ _ _ _ _ _ _ _] Kp _] D E. unfold oc_term in E. cbv zeta in E. rewrite K1, K2, K3 in E.
  destruct (t_action t) as [|a r] eqn:Ea; [discriminate E|]. destruct (assoc a oc_actions) as [act|] eqn:Eact; [|discriminate E].
  destruct (oc_side v (fst x1) (t_source_address (fst x1)) _) as [s|] eqn:Es; [|discriminate E]. cbn [bind] in E.
  destruct (oc_side v (fst x1) (t_destination_address (fst x1)) _) as [d|] eqn:Ed; [|discriminate E]. cbn [bind] in E.
  destruct (oc_rules _ _ _ _ _) as [rs|] eqn:Er; [|discriminate E]. cbn [bind] in E. apply ok_inj, pair_equal_spec in E. destruct E as [<- <-].
  assert (Sd : forall l exc o, oc_side v (fst x1) l exc = Ok o -> o = address_of_version l (Some v)).
  { intros l exc o X. unfold oc_side in X. destruct (_ && _); [discriminate X|]. apply ok_inj in X. auto. }
  apply Sd in Es, Ed. subst s d. split; [|apply numbered_numbers].
  constructor. exists a, r, act, rs, seq, (t_source_address (fst x1)), (t_destination_address (fst x1)), (snd x1).
  split; [exact Ea|]. split; [exact Eact|]. split; [|auto]. unfold oc_rules in *. rewrite K4, K5, K6 in Er. exact Er.
Qed.
Lemma oc_terms_blocks v today : forall ts xs, Forall2 kept_as ts xs -> forall seq seq' es kept, oc_terms v today seq xs = Ok (seq', es, kept) ->
  Forall2 kept_as ts kept /\ numbers_from seq es seq' /\ exists blocks, es = concat blocks /\ Forall2 (term_block v today) ts blocks.
Proof.
  induction 1 as [|t x ts xs K F IH]; intros seq seq' es kept E; cbn [oc_terms] in E.
  - apply ok_inj, pair_equal_spec in E. destruct E as [E <-]. apply pair_equal_spec in E. destruct E as [<- <-].
    split; [constructor|]. split; [apply numbers_nil|]. exists []. split; [reflexivity|constructor].
  - cbv zeta in E. pose proof (ka_same _ _ K) as R. rewrite (sr_platform _ _ R), (sr_platform_exclude _ _ R), (sr_option _ _ R) in E.
    replace (expired today (fst x)) with (expired today t) in E by (unfold expired; rewrite (sr_expiration _ _ R); reflexivity).
    pose proof (skipped_visible today t) as V. destruct (_ || expired today t).
    + destruct (oc_terms v today seq xs) as [[[q r] k]|] eqn:E1; [|discriminate E]. cbn [bind] in E.
      apply ok_inj, pair_equal_spec in E. destruct E as [E <-]. apply pair_equal_spec in E. destruct E as [<- <-].
      destruct (IH _ _ _ _ E1) as (I1 & I2 & bs & I3 & I4). split; [constructor; assumption|]. split; [exact I2|].
      exists ([] :: bs). split; [exact I3|]. constructor; [left; auto|exact I4].
    + destruct (existsb _ (t_option t)); [discriminate E|].
      destruct (oc_init x) as [x1|] eqn:E0; [|discriminate E]. cbn [bind] in E.
      destruct (oc_term v seq x1) as [[s1 e1]|] eqn:E1; [|discriminate E]. cbn [bind] in E.
      destruct (oc_terms v today s1 xs) as [[[q r] k]|] eqn:E2; [|discriminate E]. cbn [bind fst snd] in E.
      apply ok_inj, pair_equal_spec in E. destruct E as [E <-]. apply pair_equal_spec in E. destruct E as [<- <-].
      destruct (oc_init_kept t x x1 K E0) as [K1 D]. destruct (oc_term_block _ _ _ _ _ _ K1 D E1) as [B N].
      destruct (IH _ _ _ _ E2) as (I1 & I2 & bs & I3 & I4). split; [constructor; assumption|]. split; [exact (numbers_app _ _ _ _ _ N I2)|].
      exists (e1 :: bs). split; [cbn [concat]; rewrite I3; reflexivity|]. constructor; [right; auto|exact I4].
Qed.

(** ** What a list decides *)
Lemma numbered_first v es p o a b : numbers_from a es b ->
  ((exists e n, In e es /\ oc_entry_says v e p o /\ path ["sequence-id"] e = Some (JNum n) /\
     forall e' o' n', In e' es -> oc_entry_says v e' p o' -> path ["sequence-id"] e' = Some (JNum n') -> n' < n -> o' = o) <->
   first_says (fun e o => oc_entry_says v e p o) es o).
Proof.
  intros [_ N]. split.
  - intros (e & n & I & S & P & L). apply In_nth_error in I. destruct I as (i & I). destruct (N i e I) as [P' _]. rewrite P in P'. injection P' as ->.
    destruct (nth_error_split es i I) as (l1 & l2 & -> & Len). exists l1, e, l2. split; [reflexivity|]. split; [exact S|].
    intros y w Iy Sy. apply In_nth_error in Iy. destruct Iy as (k & Iy). assert (Lk : (k < List.length l1)%nat) by (apply nth_error_Some; congruence).
    assert (Iy' : nth_error (l1 ++ e :: l2) k = Some y) by (rewrite nth_error_app1 by exact Lk; exact Iy).
    apply (L y w _ (nth_error_In _ _ Iy') Sy (proj1 (N k y Iy'))). lia.
  - intros (l1 & e & l2 & -> & S & L). assert (I : nth_error (l1 ++ e :: l2) (List.length l1) = Some e) by (rewrite nth_error_app2, Nat.sub_diag by lia; reflexivity).
    exists e, (a + 1 + Z.of_nat (List.length l1)). split; [exact (nth_error_In _ _ I)|]. split; [exact S|]. split; [apply (N _ _ I)|].
    intros e' o' n' I' S' P' Ln. apply In_nth_error in I'. destruct I' as (k & I'). destruct (N k e' I') as [P2 _]. rewrite P' in P2. injection P2 as ->.
    apply (L e' o'); [|exact S']. rewrite nth_error_app1 in I' by lia. exact (nth_error_In _ _ I').
Qed.
Lemma outcome_iff a o : assoc a oc_actions = Some o <-> oc_outcome a o.
Proof.
  unfold oc_outcome, oc_actions. cbn [assoc]. split.
  - destruct (String.eqb_spec a "accept") as [->|N1]; [intros E; injection E as <-; auto|].
    destruct (String.eqb_spec a "deny") as [->|N2]; [intros E; injection E as <-; auto|].
    destruct (String.eqb_spec a "reject") as [->|N3]; [intros E; injection E as <-; auto|discriminate].
  - intros [[-> ->]|[[-> ->]|[-> ->]]]; reflexivity.
Qed.
Lemma blocks_decide v today p o : forall ts blocks, Forall2 (term_block v today) ts blocks -> oc_traffic v p ->
  (forall t, In t ts -> visible today t -> oc_term_ok v t /\ quiet "openconfig" t) ->
  (first_says (fun e o => oc_entry_says v e p o) (concat blocks) o <-> oc_policy_decides today ts p o).
Proof.
  intros ts blocks F T K. unfold oc_policy_decides. apply first_says_blocks.
  assert (Det : forall t, (forall w w', (exists a r, t_action t = a :: r /\ oc_outcome a w) -> (exists a r, t_action t = a :: r /\ oc_outcome a w') -> w = w')).
  { intros t w w' (a & r & E & X) (a' & r' & E' & X'). rewrite E in E'. injection E' as <- _. apply outcome_iff in X, X'. congruence. }
  revert K. induction F as [|t b ts blocks B F IH]; intros K; constructor; [|apply IH; intros u I; apply K; right; exact I].
  split; [|intros a a' (_ & _ & X) (_ & _ & Y); exact (Det t _ _ X Y)].
  intros w. destruct B as [(N & ->)|(V & B)].
  - split; [intros (y & [] & _)|]. intros (Fo & M & _). exfalso. apply N. split; [|exact Fo].
    destruct M as (_ & _ & _ & _ & _ & _ & _ & (M1 & M2 & _) & _). rewrite (oq_platform _ _ T) in M1, M2. split.
    + destruct M1 as [M1|(q & I & <-)]; [left; exact M1|right; exact I].
    + intros I. exact (M2 _ I eq_refl).
  - destruct (K t (or_introl eq_refl) V) as [Ok_ Q]. destruct B as [(a & r & act & rs & seq & ss & ds & ps & Ea & Eact & Er & -> & Fp & D)].
    destruct D as [Ds Dd]; [split; [apply Q|split; [apply Ok_|apply Ok_]]|].
    rewrite (entries_match v t ss ds ps rs (oc_description t) act seq p w Ok_ T Q Ds Dd Fp Er). split.
    + intros (M & ->). split; [apply V|]. split; [exact M|]. exists a, r. split; [exact Ea|]. apply outcome_iff, Eact.
    + intros (_ & M & X). split; [exact M|]. apply (Det t w act X). exists a, r. split; [exact Ea|]. apply outcome_iff, Eact.
Qed.

(** ** All lists of a policy *)
Definition oc_item : Type := json * ver * list term * list json.
Definition item_set (i : oc_item) : json := let '(name, v, ts, es) := i in oc_set name v es.
Definition item_entries (i : oc_item) : list json := snd i.
Definition item_made (today : Z) (i : oc_item) : Prop :=
  let '(name, v, ts, es) := i in (exists a b, numbers_from a es b) /\ exists blocks, es = concat blocks /\ Forall2 (term_block v today) ts blocks.
Lemma oc_sets_items today af options ts : forall vs seq xs, Forall2 kept_as ts xs -> forall seq' sets, oc_sets today af options vs seq xs = Ok (seq', sets) ->
  exists items, map (fun i : oc_item => fst i) items = map (fun v => (oc_name af v options, v, ts)) vs /\ sets = map item_set items /\ Forall (item_made today) items /\
    numbers_from seq (concat (map item_entries items)) seq'.
Proof.
  induction vs as [|v vs IH]; intros seq xs F seq' sets E; cbn [oc_sets] in E.
  - apply ok_inj, pair_equal_spec in E. destruct E as [<- <-]. exists []. split; [reflexivity|]. split; [reflexivity|]. split; [constructor|apply numbers_nil].
  - destruct (oc_terms v today seq xs) as [[[q es] kept]|] eqn:E1; [|discriminate E]. cbn [bind fst snd] in E.
    destruct (oc_sets today af options vs q kept) as [[s2 more]|] eqn:E2; [|discriminate E]. cbn [bind] in E.
    apply ok_inj, pair_equal_spec in E. destruct E as [<- <-].
    destruct (oc_terms_blocks v today ts xs F _ _ _ _ E1) as (F1 & N & bs & B1 & B2).
    destruct (IH _ _ F1 _ _ E2) as (items & I1 & I2 & I3 & I4).
    exists ((oc_name af v options, v, ts, es) :: items). split; [cbn [map fst]; rewrite I1; reflexivity|]. split; [cbn [map item_set]; rewrite I2; reflexivity|].
    split; [constructor; [|exact I3]|cbn [map concat item_entries snd]; exact (numbers_app _ _ _ _ _ N I4)].
    split; [exists seq, q; exact N|]. exists bs. auto.
Qed.
Lemma remove_first_filter w l : NoDup l -> In w l -> remove_first w l = filter (fun o => negb (String.eqb o w)) l.
Proof.
  induction 1 as [|x l N _ IH]; intros I; [destruct I|]. cbn [remove_first filter]. rewrite (String.eqb_sym w x). destruct (String.eqb_spec x w) as [->|Nx]; cbn [negb].
  - symmetry. clear -N. induction l as [|y l IH]; [reflexivity|]. cbn [filter]. destruct (String.eqb_spec y w) as [->|Ny]; cbn [negb].
    + destruct N. left. reflexivity.
    + f_equal. apply IH. intros X. apply N. right. exact X.
  - destruct I as [->|I]; [contradiction|]. rewrite IH by exact I. reflexivity.
Qed.
Lemma families_fold opts : forall l af, (forall i, In i l -> ~ In i opts) ->
  fold_left (fun st i => if str_in i (snd st) then (i, remove_first i (snd st)) else st) l (af, opts) = (af, opts).
Proof.
  induction l as [|i l IH]; intros af H; [reflexivity|]. cbn [fold_left snd].
  destruct (str_in i opts) eqn:E; [apply str_in_spec in E; destruct (H i (or_introl eq_refl) E)|]. apply IH. intros k K. apply H. right. exact K.
Qed.
Lemma oc_options_spec order options : walk order -> clear_options options ->
  exists af, oc_options order options = (af, filter (fun o => negb (str_in o family_words)) options) /\
    oc_families af = families_wanted options /\ (af = "mixed" <-> In "mixed" options).
Proof.
  intros W [N C]. unfold walk in W.
  assert (Of : forall i, In i order <-> In i family_words) by (intros i; split; apply Permutation_in; [exact W|apply Permutation_sym, W]).
  assert (Ndo : NoDup order).
  { apply (Permutation_NoDup (Permutation_sym W)). repeat (apply NoDup_cons; [intros X; cbn in X; intuition discriminate|]). apply NoDup_nil. }
  destruct (existsb (fun i => str_in i options) family_words) eqn:Ex.
  - apply existsb_exists in Ex. destruct Ex as (w & Iw & Ew). apply str_in_spec in Ew.
    exists w. unfold oc_options. destruct (in_split w order (proj2 (Of w) Iw)) as (l1 & l2 & E). rewrite E.
    rewrite E in Ndo. apply NoDup_remove in Ndo. destruct Ndo as [_ Nw].
    assert (Fr : remove_first w options = filter (fun o => negb (str_in o family_words)) options).
    { rewrite (remove_first_filter w options N Ew). apply filter_ext_in. intros o Io. f_equal.
      destruct (String.eqb_spec o w) as [->|No]; [symmetry; apply str_in_spec, Iw|].
      destruct (str_in o family_words) eqn:Eo; [|reflexivity]. apply str_in_spec in Eo. destruct No. exact (C o w Eo Iw Io Ew). }
    rewrite fold_left_app, (families_fold options l1 "inet").
    2: { intros i Ii Io. assert (i = w) by (apply (C i w); auto; apply Of; rewrite E; apply in_or_app; left; exact Ii). subst i. apply Nw, in_or_app. left. exact Ii. }
    cbn [fold_left snd]. assert (Ew' : str_in w options = true) by (apply str_in_spec, Ew). rewrite Ew'. rewrite families_fold.
    2: { intros i Ii Io. rewrite Fr in Io. apply filter_In in Io. destruct Io as [Io Nf]. apply negb_true_iff in Nf.
         assert (X : str_in i family_words = true) by (apply str_in_spec, Of; rewrite E; apply in_or_app; right; right; exact Ii). congruence. }
    rewrite Fr. split; [reflexivity|].
    assert (No : forall a, In a family_words -> a <> w -> str_in a options = false).
    { intros a Ia Na. destruct (str_in a options) eqn:Ea; [|reflexivity]. apply str_in_spec in Ea. destruct Na. exact (C a w Ia Iw Ea Ew). }
    unfold families_wanted. destruct Iw as [<-|[<-|[<-|[]]]].
    + rewrite (No "mixed"), (No "inet6") by (first [discriminate|apply str_in_spec; reflexivity]). split; [reflexivity|].
      split; [discriminate|]. intros X. apply str_in_spec in X. rewrite (No "mixed") in X by (first [discriminate|apply str_in_spec; reflexivity]). discriminate X.
    + rewrite (No "mixed") by (first [discriminate|apply str_in_spec; reflexivity]). rewrite Ew'. split; [reflexivity|].
      split; [discriminate|]. intros X. apply str_in_spec in X. rewrite (No "mixed") in X by (first [discriminate|apply str_in_spec; reflexivity]). discriminate X.
    + rewrite Ew'. split; [reflexivity|]. split; auto.
  - assert (No : forall a, In a family_words -> ~ In a options).
    { intros a Ia Io. assert (X : existsb (fun i => str_in i options) family_words = true) by (apply existsb_exists; exists a; split; [exact Ia|apply str_in_spec, Io]). congruence. }
    exists "inet". unfold oc_options. rewrite families_fold by (intros i Ii; apply No, Of, Ii). split.
    + f_equal. symmetry. rewrite <- (filter_ext_in (fun _ => true)).
      * clear. induction options as [|x l IH]; [reflexivity|]. cbn [filter]. rewrite IH. reflexivity.
      * intros o Io. symmetry. apply negb_true_iff. destruct (str_in o family_words) eqn:Eo; [|reflexivity]. apply str_in_spec in Eo. destruct (No o Eo Io).
    + unfold families_wanted. assert (Nf : forall a, In a family_words -> str_in a options = false).
      { intros a Ia. destruct (str_in a options) eqn:Ea; [|reflexivity]. apply str_in_spec in Ea. destruct (No a Ia Ea). }
      rewrite (Nf "mixed"), (Nf "inet6") by (apply str_in_spec; reflexivity). split; [reflexivity|]. split; [discriminate|].
      intros X. exfalso. apply (No "mixed"); [apply str_in_spec; reflexivity|exact X].
Qed.
Lemma oc_name_spec af v options name : (af = "mixed" <-> In "mixed" options) -> list_name options v name ->
  oc_name af v (filter (fun o => negb (str_in o family_words)) options) = JStr name.
Proof.
  intros M (first & rest & E & ->). unfold oc_name. rewrite E. f_equal. destruct (str_in "mixed" options) eqn:X.
  - apply str_in_spec in X. apply M in X. subst af. reflexivity.
  - destruct (String.eqb_spec af "mixed") as [->|_]; [|rewrite str_app_nil; reflexivity]. assert (Y : In "mixed" options) by (apply M; reflexivity). apply str_in_spec in Y. congruence.
Qed.

Definition named_as (w : list string * ver * list term) (i : oc_item) : Prop :=
  let '(options, v, ts) := w in let '(name, v', ts', es) := i in
  v' = v /\ ts' = ts /\ forall n, list_name options v n -> name = JStr n.
Lemma oc_filters_items order today : walk order -> forall fs, (forall f, In f fs -> clear_options (fst f)) -> forall seq sets, oc_filters order today seq fs = Ok sets ->
  exists items seq', sets = map item_set items /\ Forall2 named_as (lists_wanted fs) items /\ Forall (item_made today) items /\
    numbers_from seq (concat (map item_entries items)) seq'.
Proof.
  intros W. induction fs as [|[options ts] fs IH]; intros C seq sets E; cbn [oc_filters] in E.
  - apply ok_inj in E. subst sets. exists [], seq. split; [reflexivity|]. split; [constructor|]. split; [constructor|apply numbers_nil].
  - destruct (oc_options_spec order options W (C _ (or_introl eq_refl))) as (af & Eo & Ef & Em). rewrite Eo in E.
    destruct (oc_sets _ _ _ _ _ _) as [[s1 l1]|] eqn:E1; [|discriminate E]. cbn [bind] in E.
    destruct (oc_filters order today s1 fs) as [l2|] eqn:E2; [|discriminate E]. cbn [bind] in E. apply ok_inj in E. subst sets.
    assert (K : Forall2 kept_as ts (map (fun t => (t, map PName (t_protocol t))) ts)) by (clear; induction ts as [|t ts IH]; cbn [map]; constructor; [apply kept_start|exact IH]).
    destruct (oc_sets_items _ _ _ _ _ _ _ K _ _ E1) as (it1 & A1 & A2 & A3 & A4).
    destruct (IH (fun f I => C f (or_intror I)) _ _ E2) as (it2 & s2 & B1 & B2 & B3 & B4).
    exists (it1 ++ it2), s2. split; [rewrite map_app, A2, B1; reflexivity|]. split; [|split; [apply Forall_app; auto|rewrite map_app, concat_app; exact (numbers_app _ _ _ _ _ A4 B4)]].
    unfold lists_wanted. cbn [flat_map fst snd]. apply Forall2_app; [|exact B2]. rewrite <- Ef. revert A1. generalize (oc_families af). clear -Em.
    intros vs. revert vs. induction it1 as [|[[[name v'] ts'] es] it1 IH]; intros [|v vs] A; try discriminate A; cbn [map] in *; [constructor|].
    apply (f_equal (fun l => (hd_error l, tl l))) in A. apply pair_equal_spec in A. cbn [hd_error tl fst] in A. destruct A as [A1 A2].
    constructor; [|exact (IH vs A2)]. injection A1 as -> -> ->. split; [reflexivity|]. split; [reflexivity|]. intros n Ln. exact (oc_name_spec af v options n Em Ln).
Qed.

(** ** The whole configuration *)
Lemma oc_policy_items order today fs j : walk order -> (forall f, In f fs -> clear_options (fst f)) -> oc_policy order today fs = Ok j ->
  check_tokens "openconfig" oc_tokens (map (fun f => (["openconfig"], snd f)) fs) = Ok tt /\
  exists items, path ["acl-sets"; "acl-set"] j = Some (JList (map item_set items)) /\ Forall2 named_as (lists_wanted fs) items /\ Forall (item_made today) items /\
    exists n, numbers_from 0 (concat (map item_entries items)) n.
Proof.
  intros W C E. unfold oc_policy in E. destruct (check_tokens _ _ _) as [[]|] eqn:Ec; [|discriminate E]. cbn [bind] in E.
  destruct (oc_filters order today 0 fs) as [sets|] eqn:Ef; [|discriminate E]. cbn [bind] in E. apply ok_inj in E. subst j.
  split; [reflexivity|]. destruct (oc_filters_items order today W fs C 0 sets Ef) as (items & n & -> & I1 & I2 & I3).
  exists items. split; [reflexivity|]. split; [exact I1|]. split; [exact I2|]. exists n. exact I3.
Qed.
Lemma item_paths i : let '(name, v, ts, es) := i in
  entries_of (item_set i) es /\ path ["name"] (item_set i) = Some name /\ path ["config"; "name"] (item_set i) = Some name /\
  path ["type"] (item_set i) = Some (JStr (list_type v)) /\ path ["config"; "type"] (item_set i) = Some (JStr (list_type v)).
Proof. destruct i as [[[name v] ts] es]. destruct v; repeat split. Qed.
Lemma lists_wanted_in fs options v ts : In (options, v, ts) (lists_wanted fs) -> In (options, ts) fs.
Proof.
  unfold lists_wanted. intros I. apply in_flat_map in I. destruct I as ([o l] & I & J). cbn [fst snd] in J. apply in_map_iff in J.
  destruct J as (w & E & _). apply pair_equal_spec in E. destruct E as [E <-]. apply pair_equal_spec in E. destruct E as [<- _]. exact I.
Qed.
Theorem oc_lists order today fs j : walk order -> (forall f, In f fs -> clear_options (fst f)) -> oc_policy order today fs = Ok j ->
  exists sets ess, path ["acl-sets"; "acl-set"] j = Some (JList sets) /\ Forall2 entries_of sets ess /\
    Forall2 (fun w set => let '(options, v, ts) := w in
      path ["type"] set = Some (JStr (list_type v)) /\ path ["config"; "type"] set = Some (JStr (list_type v)) /\
      forall name, list_name options v name -> path ["name"] set = Some (JStr name) /\ path ["config"; "name"] set = Some (JStr name)) (lists_wanted fs) sets /\
    forall i e, nth_error (concat ess) i = Some e -> path ["sequence-id"] e = Some (JNum (Z.of_nat i + 1)) /\ path ["config"; "sequence-id"] e = Some (JNum (Z.of_nat i + 1)).
Proof.
  intros W C E. destruct (oc_policy_items order today fs j W C E) as (_ & items & P & F & _ & n & _ & N).
  exists (map item_set items), (map item_entries items). split; [exact P|]. split; [|split].
  - clear. induction items as [|i items IH]; cbn [map]; constructor; [|exact IH]. pose proof (item_paths i) as X. destruct i as [[[name v] ts] es]. apply X.
  - clear -F. induction F as [|[[o v] ts] i ws items K F IH]; cbn [map]; constructor; [|exact IH]. pose proof (item_paths i) as X. destruct i as [[[name v'] ts'] es].
    destruct K as (-> & -> & K). destruct X as (_ & X1 & X2 & X3 & X4). split; [exact X3|]. split; [exact X4|]. intros nm L. rewrite X1, X2, (K nm L). auto.
  - intros i e H. destruct (N i e H) as [A B]. rewrite A, B. split; do 2 f_equal; lia.
Qed.
Theorem oc_entries_origin order today fs j sets : walk order -> (forall f, In f fs -> clear_options (fst f)) -> oc_policy order today fs = Ok j ->
  path ["acl-sets"; "acl-set"] j = Some (JList sets) ->
  Forall2 (fun w set => let '(options, v, ts) := w in forall es e, entries_of set es -> In e es ->
    exists t a r o, In t ts /\ meant_for "openconfig" t /\ in_force today t /\ t_action t = a :: r /\ oc_outcome a o /\
      path ["config"; "description"] e = Some (JStr (append "[" (append (t_name t) (append "]: " (join " " (t_comment t)))))) /\
      path ["actions"; "config"; "forwarding-action"] e = Some (JStr o)) (lists_wanted fs) sets.
Proof.
  intros W C E Ps. destruct (oc_policy_items order today fs j W C E) as (_ & items & P & F & M & _). rewrite P in Ps. injection Ps as <-. clear -F M.
  induction F as [|[[o v] ts] i ws items K F IH]; cbn [map]; constructor; [|apply IH; inversion M; assumption]. pose proof (item_paths i) as X.
  inversion M as [|? ? Mi _]; subst. destruct i as [[[name v'] ts'] es]. destruct K as (-> & -> & _). destruct X as (X & _). destruct Mi as (_ & bs & -> & B).
  intros es e Ee Ie. unfold entries_of in *. rewrite X in Ee. injection Ee as <-. apply in_concat in Ie. destruct Ie as (b & Ib & Ie).
  destruct (NamingProofs.Forall2_in_r _ _ _ _ B Ib) as (t & It & [[_ ->]|[V Bk]]); [destruct Ie|].
  destruct Bk as [(a & r & act & rs & seq & ss & ds & ps & Ea & Eact & _ & -> & _)].
  destruct (proj1 (numbered_in _ _ _) e Ie) as (x & k & _ & ->). destruct (entry_paths v (oc_description t) act x k) as (_ & _ & _ & _ & _ & _ & _ & Y1 & Y2 & _).
  exists t, a, r, act. split; [exact It|]. split; [apply V|]. split; [apply V|]. split; [exact Ea|]. split; [apply outcome_iff, Eact|]. split; [exact Y2|exact Y1].
Qed.
Lemma oc_set_iff v name es p o a b : numbers_from a es b -> (oc_set_decides (oc_set name v es) p o <-> first_says (fun e o => oc_entry_says v e p o) es o).
Proof.
  intros N. rewrite <- (numbered_first v es p o a b N). unfold oc_set_decides. destruct (item_paths (name, v, [], es)) as (X1 & _ & _ & _ & X2). cbn [item_set] in X1, X2. split.
  - intros (v' & es' & e & n & T & Es & R). unfold entries_of in *. rewrite X2 in T. rewrite X1 in Es. injection Es as <-.
    assert (v' = v) by (destruct v, v'; first [reflexivity|discriminate T]). subst v'. exists e, n. exact R.
  - intros (e & n & R). exists v, es, e, n. split; [exact X2|]. split; [exact X1|exact R].
Qed.
Theorem oc_decides order today fs j sets : walk order -> (forall f, In f fs -> clear_options (fst f)) -> oc_policy order today fs = Ok j ->
  path ["acl-sets"; "acl-set"] j = Some (JList sets) ->
  Forall2 (fun w set => let '(options, v, ts) := w in forall p o,
    (forall t, In t ts -> meant_for "openconfig" t -> in_force today t -> oc_term_ok v t) -> oc_traffic v p ->
    (oc_set_decides set p o <-> oc_policy_decides today ts p o)) (lists_wanted fs) sets.
Proof.
  intros W C E Ps. destruct (oc_policy_items order today fs j W C E) as (Ck & items & P & F & M & _). rewrite P in Ps. injection Ps as <-.
  assert (Q : forall options v ts t, In (options, v, ts) (lists_wanted fs) -> In t ts -> meant_for "openconfig" t -> oc_term_ok v t -> quiet "openconfig" t).
  { intros options v ts t Iw It Mf K. apply lists_wanted_in in Iw.
    destruct (ot_warned _ _ K) as (K1 & K2 & K3 & K4). destruct (ot_texts _ _ K) as [K5 K6].
    apply (accepted_quiet "openconfig" oc_tokens (map (fun f => (["openconfig"], snd f)) fs) ["openconfig"] ts t); try assumption.
    - intros s Hs. unfold oc_tokens. cbn [supported]. destruct (str_in s (filter _ _)) eqn:X; [|reflexivity]. apply str_in_spec, filter_In in X. destruct X as [X _]. apply str_in_spec in X. congruence.
    - apply in_map_iff. exists (options, ts). auto.
    - left. reflexivity. }
  revert Q F M. clear. generalize (lists_wanted fs). intros ws Q F M.
  induction F as [|[[opts v] ts] i ws items K F IH]; cbn [map]; [constructor|]. constructor; [|apply IH; [|inversion M; assumption]; intros o' v' ts' t I; apply (Q o' v' ts' t); right; exact I].
  inversion M as [|? ? Mi _]; subst. destruct i as [[[name v'] ts'] es]. destruct K as (-> & -> & _). destruct Mi as ((a & b & N) & bs & -> & B).
  intros p o H T. cbn [item_set]. rewrite (oc_set_iff v name _ p o a b N). apply (blocks_decide v today p o ts bs B T).
  intros t It [V1 V2]. pose proof (H t It V1 V2) as K. split; [exact K|]. exact (Q opts v ts t (or_introl eq_refl) It V1 K).
Qed.
