(** A whole access list decides as the policy does. *)
From Coq Require Import Lia ZifyBool ZifyNat.
From Verif Require Import SpecCisco SpecSum BaseFacts PyStrFacts PortProofs GenProofs GenProofs2 CiscoProofs CiscoProofs2 CiscoTerm.
Local Open Scope string_scope.
Local Open Scope list_scope.
Local Open Scope Z_scope.

(** ** Lists of rules *)

Lemma first_says_nil {A} (M : A -> string -> Prop) act : ~ first_says M [] act.
Proof. intros (b & x & c & E & _). destruct b; discriminate E. Qed.
Lemma first_says_cons {A} (M : A -> string -> Prop) x l act :
  first_says M (x :: l) act <-> M x act \/ (first_says M l act /\ forall a, M x a -> a = act).
Proof.
  split.
  - intros (b & y & c & E & H & F). destruct b as [|y0 b].
    + injection E as <- <-. auto.
    + injection E as <- E. right. split.
      * exists b, y, c. split; [exact E|]. split; [exact H|]. intros z a I. apply F. right. exact I.
      * intros a. apply F. left. reflexivity.
  - intros [H|((b & y & c & E & H & F) & G)].
    + exists [], x, l. split; [reflexivity|]. split; [exact H|]. intros y a [].
    + exists (x :: b), y, c. split; [rewrite E; reflexivity|]. split; [exact H|]. intros z a [<-|I]; [apply G|apply F, I].
Qed.
Lemma first_says_app {A} (M : A -> string -> Prop) l1 l2 act :
  first_says M (l1 ++ l2) act <->
  first_says M l1 act \/ (first_says M l2 act /\ forall y a, In y l1 -> M y a -> a = act).
Proof.
  induction l1 as [|x l1 IH]; cbn [app].
  - split; [intros H; right; split; [exact H|intros y a []]|].
    intros [H|(H & _)]; [apply first_says_nil in H; destruct H|exact H].
  - rewrite !first_says_cons, IH. split.
    + intros [H|([H|(H & G)] & F)]; [auto|auto|]. right. split; [exact H|]. intros y a [<-|I]; [apply F|apply G, I].
    + intros [[H|(H & F)]|(H & G)]; [auto|auto|]. right. split; [right; split; [exact H|]|].
      * intros y a I. apply G. right. exact I.
      * intros a. apply G. left. reflexivity.
Qed.
Lemma first_says_block {A} (M : A -> string -> Prop) l act :
  (forall y z a b, In y l -> In z l -> M y a -> M z b -> a = b) ->
  (first_says M l act <-> exists y, In y l /\ M y act).
Proof.
  intros F. split.
  - intros (b & x & c & -> & H & _). exists x. split; [apply in_or_app; right; left; reflexivity|exact H].
  - intros (y & I & H). apply in_split in I. destruct I as (b & c & E). exists b, y, c. split; [exact E|]. split; [exact H|].
    intros z a I Hz. apply (F z y a act); auto; rewrite E; apply in_or_app; [left; exact I|right; left; reflexivity].
Qed.
(** Blocks of rules, one for each item of another list *)
Lemma first_says_blocks {A B} (M : A -> string -> Prop) (T : B -> string -> Prop) ts blocks act :
  Forall2 (fun t b => (forall a, (exists y, In y b /\ M y a) <-> T t a) /\ (forall a a', T t a -> T t a' -> a = a')) ts blocks ->
  (first_says M (concat blocks) act <-> first_says T ts act).
Proof.
  induction 1 as [|t b ts blocks (H1 & H2) F IH]; cbn [concat].
  - split; intros H; apply first_says_nil in H; destruct H.
  - rewrite first_says_app, first_says_cons, IH, first_says_block.
    + rewrite H1. apply or_iff_compat_l. apply and_iff_compat_l. split.
      * intros G a Ta. apply H1 in Ta. destruct Ta as (y & I & My). exact (G y a I My).
      * intros G y a I My. apply G, H1. eauto.
    + intros y z a a' Iy Iz My Mz. apply H2; apply H1; eauto.
Qed.

(** ** Selection of terms *)

Lemma family_iff c f : (c_af c = 4 \/ c_af c = 6) -> String.eqb f (c_family c) = true <-> f = c_family c.
Proof. intros _. apply String.eqb_eq. Qed.

Lemma established_cisco c t : cisco_term_ok c t -> wants_established t ->
  t_protocol t <> [] /\ forall q, In q (t_protocol t) -> q = "tcp".
Proof.
  intros K (o & I & S). destruct (ct_option _ _ K o I) as [(_ & H)|(J & _)]; [exact H|].
  exfalso. simpl in J. destruct J as [<-|[<-|[]]]; vm_compute in S; discriminate S.
Qed.

Lemma high_ports_ok c t ports : cisco_term_ok c t -> (forall r, In r ports -> 0 <= fst r /\ 0 <= snd r) ->
  cisco_term_ok c (set_destination_port ports t).
Proof.
  intros K P. constructor.
  - exact (ct_af _ _ K).
  - exact (ct_dsmo _ _ K).
  - exact (ct_only _ _ K).
  - exact (ct_action _ _ K).
  - exact (ct_src _ _ K).
  - exact (ct_dst _ _ K).
  - exact (ct_protocol _ _ K).
  - exact (ct_ipv6 _ _ K).
  - exact (ct_icmp _ _ K).
  - intros r I. apply in_app_or in I. destruct I as [I|I]; [apply (ct_ports _ _ K), in_or_app; left; exact I|apply P, I].
  - exact (ct_codes _ _ K).
  - exact (ct_option _ _ K).
  - exact (ct_dscp _ _ K).
Qed.
Lemma name_ok c t n : cisco_term_ok c t -> cisco_term_ok c (set_name n t).
Proof.
  intros K. constructor.
  - exact (ct_af _ _ K).
  - exact (ct_dsmo _ _ K).
  - exact (ct_only _ _ K).
  - exact (ct_action _ _ K).
  - exact (ct_src _ _ K).
  - exact (ct_dst _ _ K).
  - exact (ct_protocol _ _ K).
  - exact (ct_ipv6 _ _ K).
  - exact (ct_icmp _ _ K).
  - exact (ct_ports _ _ K).
  - exact (ct_codes _ _ K).
  - exact (ct_option _ _ K).
  - exact (ct_dscp _ _ K).
Qed.

Definition says_today (today : Z) (p : packet) (t : term) (a : string) : Prop :=
  applies_today today p t /\ exists w r, t_action t = w :: r /\ a = verdict w.
Definition says_now (p : packet) (t : term) (a : string) : Prop :=
  term_matches t p /\ exists w r, t_action t = w :: r /\ a = verdict w.

Lemma select_spec c today p : cisco_traffic c p -> forall terms seen ts,
  Forall (fun t => in_force today t -> cisco_term_ok c t /\ t_restrict_address_family t <> Some "") terms ->
  cisco_select c today seen terms = Ok ts ->
  Forall (fun t => cisco_term_ok c t /\ opt_eq (t_restrict_address_family t) (p_family p)) ts /\
  forall act, first_says (says_now p) ts act <-> first_says (says_today today p) terms act.
Proof.
  intros (Q1 & Q2 & Q3 & Q4 & Q5 & Q6 & Q7 & Q8 & Q9).
  induction terms as [|t rest IH]; intros seen ts F H.
  - apply ok_inj in H. subst. split; [constructor|]. intros act. split; intros X; apply first_says_nil in X; destruct X.
  - inversion F as [|? ? Ft Fr]; subst. cbn [cisco_select] in H. destruct (str_in (t_name t) seen); [discriminate H|].
    destruct (fix_term_length _ _ _ _ _) as [n|e]; [|discriminate H]. cbn [bind] in H.
    destruct (fix_high_ports _ _ _ _) as [t'|e] eqn:Eh; [|discriminate H]. cbn [bind] in H.
    destruct (cisco_select c today (t_name t :: seen) rest) as [ts0|e] eqn:Es; [|discriminate H]. cbn [bind] in H.
    destruct (IH _ _ Fr Es) as (IH1 & IH2). clear IH.
    pose proof (fix_high_ports_spec _ _ _ _ _ Eh) as S. cbv zeta in S. destruct S as (_ & _ & S).
    assert (Sh : (~ wants_established t /\ t' = set_name n t) \/
                 (wants_established t /\ t' = set_destination_port (collapse_port_list (t_destination_port t ++ [(1024, 65535)])) (set_name n t))).
    { destruct S as [(S1 & S2)|[(_ & S1 & _)|(S1 & _ & S2)]]; [left; split; [exact S1|exact S2]|discriminate S1|right; split; [exact S1|exact S2]]. }
    assert (Er : t_restrict_address_family t' = t_restrict_address_family t) by (destruct Sh as [(_ & ->)|(_ & ->)]; reflexivity).
    assert (Ee : t_expiration t' = t_expiration t) by (destruct Sh as [(_ & ->)|(_ & ->)]; reflexivity).
    assert (Ea : t_action t' = t_action t) by (destruct Sh as [(_ & ->)|(_ & ->)]; reflexivity).
    assert (Em : term_matches t' p <-> stateless_matches t p).
    { unfold stateless_matches. destruct Sh as [(N & Et)|(Y & Et)].
      - rewrite Et. change (term_matches (set_name n t) p) with (term_matches t p). tauto.
      - pose proof (fix_high_ports_matches _ _ _ _ Eh Y p) as X.
        change (term_matches (set_destination_port [] (set_name n t)) p) with (term_matches (set_destination_port [] t) p) in X.
        change (t_destination_port (set_name n t)) with (t_destination_port t) in X. rewrite X. tauto. }
    assert (Skip : (forall a, ~ says_today today p t a) -> ts = ts0 ->
      Forall (fun t => cisco_term_ok c t /\ opt_eq (t_restrict_address_family t) (p_family p)) ts /\
      forall act, first_says (says_now p) ts act <-> first_says (says_today today p) (t :: rest) act).
    { intros N ->. split; [exact IH1|]. intros act. rewrite first_says_cons, IH2. split.
      - intros X. right. split; [exact X|]. intros a Y. destruct (N _ Y).
      - intros [X|(X & _)]; [destruct (N _ X)|exact X]. }
    assert (Fam : stateless_matches t p -> opt_eq (t_restrict_address_family t) (p_family p)).
    { intros X. apply Em in X. rewrite <- Er. apply X. }
    rewrite Er in H. destruct (match t_restrict_address_family t with Some f => _ | None => false end) eqn:Ef.
    { apply ok_inj in H. apply Skip; [|symmetry; exact H]. intros a ((_ & X) & _). apply Fam in X.
      destruct (t_restrict_address_family t) as [f|]; [|discriminate Ef]. cbn [opt_eq] in X.
      apply andb_true_iff in Ef. destruct Ef as (_ & Ef). apply negb_true_iff, String.eqb_neq in Ef. congruence. }
    unfold expired in H. rewrite Ee in H.
    destruct (match t_expiration t with Some d => d <=? today | None => false end) eqn:Ex.
    { apply ok_inj in H. apply Skip; [|symmetry; exact H]. intros a ((X & _) & _).
      unfold in_force in X. destruct (t_expiration t) as [d|]; [|discriminate Ex]. specialize (X d eq_refl). lia. }
    assert (Live : in_force today t).
    { intros d E. rewrite E in Ex. lia. }
    destruct (Ft Live) as (K & Nf). apply ok_inj in H. subst ts. split.
    + constructor; [|exact IH1]. split.
      * destruct Sh as [(_ & ->)|(_ & ->)]; [apply name_ok, K|]. apply high_ports_ok; [apply name_ok, K|].
        intros r I. apply collapse_ports_ends in I. destruct I as ((a & Ia & <-) & (b & Ib & <-)).
        assert (B : forall x, In x (t_destination_port t ++ [(1024, 65535)]) -> 0 <= fst x /\ 0 <= snd x).
        { intros x I. apply in_app_or in I. destruct I as [I|[<-|[]]]; [apply (ct_ports _ _ K), in_or_app; right; exact I|simpl; lia]. }
        split; [apply B, Ia|apply B, Ib].
      * rewrite Er. destruct (t_restrict_address_family t) as [f|]; [|exact I]. cbn [opt_eq].
        assert (Hf : is_empty f = false) by (destruct f; [congruence|reflexivity]). rewrite Hf in Ef. cbn [negb andb] in Ef.
        apply negb_false_iff, String.eqb_eq in Ef. congruence.
    + intros act. rewrite !first_says_cons, IH2.
      assert (E : forall a, says_now p t' a <-> says_today today p t a).
      { intros a. unfold says_now, says_today, applies_today. rewrite Em, Ea. tauto. }
      rewrite E. apply or_iff_compat_l, and_iff_compat_l. split; intros X a Y; apply X, E, Y.
Qed.

Lemma mapM_forall2 {A B} (f : A -> res B) l ys : mapM f l = Ok ys -> Forall2 (fun x y => f x = Ok y) l ys.
Proof.
  revert ys. induction l as [|x l IH]; cbn [mapM]; intros ys H.
  - apply ok_inj in H. subst. constructor.
  - destruct (f x) as [y|e] eqn:E; [|discriminate H]. cbn [bind] in H. destruct (mapM f l) as [r|e]; [|discriminate H].
    cbn [bind] in H. apply ok_inj in H. subst ys. constructor; auto.
Qed.

Theorem cisco_acl_decides c today terms lines p :
  Forall (fun t => in_force today t -> cisco_term_ok c t /\ t_restrict_address_family t <> Some "") terms ->
  cisco_traffic c p -> cisco_acl c today terms = Ok lines ->
  forall outcome, acl_decides (c_ver c) lines p outcome <-> terms_decide (applies_today today p) terms outcome.
Proof.
  intros F Q H outcome. unfold cisco_acl in H.
  destruct (cisco_select c today [] terms) as [ts|e] eqn:Es; [|discriminate H]. cbn [bind] in H.
  destruct (mapM (cisco_term c) ts) as [ls|e] eqn:Em; [|discriminate H]. cbn [bind] in H. apply ok_inj in H. subst lines.
  destruct (select_spec c today p Q _ _ _ F Es) as (Fs & Sp).
  unfold terms_decide. change (fun (t : term) (a : string) => applies_today today p t /\ exists w r, t_action t = w :: r /\ a = verdict w)
    with (says_today today p). rewrite <- Sp. unfold acl_decides. apply first_says_blocks.
  apply mapM_forall2 in Em. revert Fs Em. clear - Q. intros Fs Em. induction Em as [|t b ts ls E Em IH]; [constructor|].
  inversion Fs as [|? ? (K & Ff) Fr]; subst. constructor; [|apply IH, Fr].
  destruct Q as (Q1 & Q2 & Q3 & Q4 & Q5 & Q6 & Q7 & Q8 & Q9).
  assert (Qp : cisco_packet c t p) by (constructor; auto).
  destruct (ct_action _ _ K) as (w & r & Ew & _).
  destruct (cisco_term_exact c t p b w r K Qp E Ew) as (X1 & X2). unfold says_now. split.
  - intros a. split.
    + intros (y & I & M). pose proof (X2 _ _ I M) as ->. split; [apply X1; eauto|]. exists w, r. auto.
    + intros (M & w' & r' & Ew' & ->). rewrite Ew in Ew'. injection Ew' as <- <-. apply X1, M.
  - intros a a' (_ & w1 & r1 & E1 & ->) (_ & w2 & r2 & E2 & ->). congruence.
Qed.

(** ** Expired terms *)

Lemma fix_high_expiration g t af b t' : fix_high_ports g t af b = Ok t' -> t_expiration t' = t_expiration t.
Proof.
  intros H. apply fix_high_ports_spec in H. cbv zeta in H.
  destruct H as (_ & _ & [(_ & ->)|[(_ & _ & _ & ->)|(_ & _ & ->)]]); reflexivity.
Qed.
Lemma select_expired c today : forall terms seen seen' ts, incl seen' seen ->
  cisco_select c today seen terms = Ok ts ->
  cisco_select c today seen' (filter (fun t => negb (expired today t)) terms) = Ok ts.
Proof.
  induction terms as [|t rest IH]; intros seen seen' ts Hi H; [exact H|].
  cbn [cisco_select] in H. destruct (str_in (t_name t) seen) eqn:En; [discriminate H|].
  assert (En' : str_in (t_name t) seen' = false).
  { apply str_in_false. apply str_in_false in En. auto. }
  destruct (fix_term_length _ _ _ _ _) as [n|e] eqn:El; [|discriminate H]. cbn [bind] in H.
  destruct (fix_high_ports _ _ _ _) as [t'|e] eqn:Eh; [|discriminate H]. cbn [bind] in H.
  destruct (cisco_select c today (t_name t :: seen) rest) as [ts0|e] eqn:Es; [|discriminate H]. cbn [bind] in H.
  pose proof (fix_high_expiration _ _ _ _ _ Eh) as Ee. change (t_expiration (set_name n t)) with (t_expiration t) in Ee.
  assert (Ex : expired today t' = expired today t) by (unfold expired; rewrite Ee; reflexivity).
  cbn [filter]. destruct (expired today t) eqn:X; cbn [negb].
  - rewrite Ex in H. apply (IH (t_name t :: seen) seen' ts); [intros y I; right; auto|]. rewrite Es.
    destruct (match t_restrict_address_family t' with Some f => _ | None => false end); exact H.
  - cbn [cisco_select]. rewrite En', El. cbn [bind]. rewrite Eh. cbn [bind].
    rewrite (IH (t_name t :: seen) (t_name t :: seen') ts0); [exact H| |exact Es].
    intros y [<-|I]; [left; reflexivity|right; auto].
Qed.
Lemma cisco_acl_expired c today terms lines : cisco_acl c today terms = Ok lines ->
  cisco_acl c today (filter (fun t => negb (expired today t)) terms) = Ok lines.
Proof.
  unfold cisco_acl. intros H. destruct (cisco_select c today [] terms) as [ts|e] eqn:Es; [|discriminate H].
  rewrite (select_expired _ _ _ _ [] _ (incl_refl _) Es). exact H.
Qed.
