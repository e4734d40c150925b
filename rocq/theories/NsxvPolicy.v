(** NSX-V sections: terms and whole policies. *)
From Coq Require Import Lia ZifyBool ZifyNat.
From Verif Require Import SpecGce BaseFacts IPFacts PyStrFacts TextProofs PolicyProofs GenProofs GenProofs2 CiscoProofs CiscoProofs2 CiscoAcl GceProofs GceDecide GceRules QuietTerm IptAddr OpenConfigProofs JuniperProofs PfPolicy NsxProofs NsxPolicy NsxvRead NsxvProofs SpecNsxv.
From Verif Require AsaPolicy CiscoGroupAcl.
Local Open Scope string_scope.
Local Open Scope list_scope.
Local Open Scope Z_scope.

(** ** Addresses *)
Lemma nv_side_one v inc exc l : valid_list inc -> valid_list exc -> inc <> [] -> nv_side v inc exc = Ok l ->
  valid_list l /\ of_ver v l /\ (forall x, fst x = v -> covered l x <-> covered inc x /\ ~ covered exc x).
Proof.
  intros Vi Ve N H. unfold nv_side in H. cbv zeta in H. rewrite (proj2 (some_not_nil inc) N) in H. pose proof (version_valid v inc Vi) as Va. pose proof (version_valid v exc Ve) as Vx.
  destruct (some (address_of_version exc (Some v))) eqn:Se.
  - destruct (exclude_ok _ _ Va Vx) as (r & E & Vr & C). rewrite E in H. apply ok_inj in H. subst r. split; [exact Vr|]. split.
    { apply covers_of_ver; [exact Vr|]. intros x X. apply C in X. destruct X as (X & _). apply (of_ver_covered v _ _ (version_of_ver v inc) X). }
    intros x F. rewrite C, !version_covered by exact F. tauto.
  - apply some_nil in Se. assert (Ne : forall x, fst x = v -> ~ covered exc x).
    { intros x F X. apply (version_covered v) in X; [|exact F]. rewrite Se in X. destruct X as (n & [] & _). }
    apply ok_inj in H. subst l. split; [exact Va|]. split; [apply version_of_ver|]. intros x F. rewrite version_covered by exact F. specialize (Ne x F). tauto.
Qed.
Lemma nv_side_spec vs inc exc l4 l6 : nv_side_ok vs inc exc ->
  (if of_vers vs V4 then nv_side V4 inc exc else Ok []) = Ok l4 -> (if of_vers vs V6 then nv_side V6 inc exc else Ok []) = Ok l6 ->
  valid_list (l4 ++ l6) /\ of_ver V4 l4 /\ of_ver V6 l6 /\ (forall x, In (fst x) vs -> grp (l4 ++ l6) x <-> side_matches inc exc x).
Proof.
  intros (Vi & Ve & [(-> & ->)|(Ni & (y & Y1 & Y2))]) H4 H6.
  - assert (l4 = []) by (destruct (of_vers vs V4); apply ok_inj in H4; auto). assert (l6 = []) by (destruct (of_vers vs V6); apply ok_inj in H6; auto). subst.
    split; [constructor|]. split; [intros n []|]. split; [intros n []|]. intros x _. unfold grp, side_matches. cbn. rewrite covered_nil. intuition.
  - assert (Sm : forall x, side_matches inc exc x <-> covered inc x /\ ~ covered exc x) by (intros x; unfold side_matches; tauto).
    assert (X : forall v l, (if of_vers vs v then nv_side v inc exc else Ok []) = Ok l -> valid_list l /\ of_ver v l /\ (In v vs -> forall x, fst x = v -> covered l x <-> covered inc x /\ ~ covered exc x)).
    { intros v l H. destruct (of_vers vs v) eqn:Ev.
      - destruct (nv_side_one _ _ _ _ Vi Ve Ni H) as (A & B & C). auto.
      - apply ok_inj in H. subst l. split; [constructor|]. split; [intros n []|]. intros I. exfalso. unfold of_vers in Ev. rewrite existsb_false in Ev. specialize (Ev v I). destruct v; discriminate Ev. }
    destruct (X V4 l4 H4) as (A1 & A2 & A3), (X V6 l6 H6) as (B1 & B2 & B3). split; [apply Forall_app; split; assumption|]. split; [exact A2|]. split; [exact B2|].
    assert (All : forall x, In (fst x) vs -> covered (l4 ++ l6) x <-> side_matches inc exc x).
    { intros x F. rewrite covered_app, Sm. destruct (fst x) eqn:Fx.
      - rewrite (A3 F x Fx). split; [intros [Z|Z]; [exact Z|]|auto]. apply (of_ver_covered V6 _ _ B2) in Z. congruence.
      - rewrite (B3 F x Fx). split; [intros [Z|Z]; [|exact Z]|auto]. apply (of_ver_covered V4 _ _ A2) in Z. congruence. }
    intros x F. rewrite <- (All x F). unfold grp. split; [intros [Z|Z]; [|exact Z]|auto]. exfalso. apply (All y Y1) in Y2. rewrite Z in Y2. destruct Y2 as (n & [] & _).
Qed.

(** ** Terms *)
Lemma nv_meant t : ((some (t_platform t) && negb (str_in "nsxv" (t_platform t))) || (some (t_platform_exclude t) && str_in "nsxv" (t_platform_exclude t))) = false <-> meant_for "nsxv" t.
Proof.
  unfold meant_for. rewrite orb_false_iff. split.
  - intros (A & B). split.
    + destruct (t_platform t) as [|q l]; [left; reflexivity|]. right. cbn [some andb] in A. apply negb_false_iff, str_in_spec in A. exact A.
    + intros X. destruct (t_platform_exclude t) as [|q l]; [destruct X|]. cbn [some andb] in B. apply str_in_spec in X. congruence.
  - intros (A & B). split.
    + destruct A as [->|A]; [reflexivity|]. apply str_in_spec in A. rewrite A. apply andb_false_r.
    + destruct (str_in "nsxv" (t_platform_exclude t)) eqn:X; [apply str_in_spec in X; contradiction|apply andb_false_r].
Qed.
Lemma nv_verdict_actions a : assoc a nv_actions = nv_verdict a.
Proof.
  unfold nv_actions, nv_verdict. cbn [assoc str_in memb existsb]. destruct (String.eqb a "accept"); [reflexivity|]. destruct (String.eqb a "deny"); [reflexivity|].
  destruct (String.eqb a "reject"); [reflexivity|]. destruct (String.eqb a "reject-with-tcp-rst"); reflexivity.
Qed.
Lemma verdict_tidy a w : nv_verdict a = Some w -> w <> "" /\ plain w /\ squeeze false w = w.
Proof.
  unfold nv_verdict. destruct (String.eqb a "accept"); [|destruct (String.eqb a "deny"); [|destruct (str_in a _); [|discriminate]]]; intros X; injection X as <-; (split; [discriminate|split; [repeat split; reflexivity|reflexivity]]).
Qed.
(** Elements that can be read. *)
Definition readable (x : xml) : Prop := match x with Elem h k => head_ok h = true /\ good k | Text _ => False end.
Lemma readable_all l : (forall x, In x l -> readable x) -> good l.
Proof.
  induction l as [|x l IH]; intros H; [constructor|]. assert (A : good l) by (apply IH; intros; apply H; right; assumption). specialize (H x (or_introl eq_refl)). destruct x as [h k|s]; [|destruct H]. destruct H. constructor; assumption.
Qed.
(** Numbers of types. *)
Lemma no_zero_type v u : In (u, 0) (icmp_types_of v) -> u = "echo-reply".
Proof.
  assert (D : forallb (fun e : string * Z => negb (snd e =? 0) || String.eqb (fst e) "echo-reply") (icmp_types_of v) = true) by (destruct v; vm_compute; reflexivity).
  rewrite forallb_forall in D. intros I. specialize (D _ I). cbn [fst snd] in D. apply String.eqb_eq. destruct (0 =? 0) eqn:E; [exact D|discriminate E].
Qed.
Lemma type_numbers types protocols af l : normalize_icmp_types types protocols af = Ok (Some l) -> l <> [] /\ forall k, In k l -> 0 <= k /\ (k = 0 -> In "echo-reply" types).
Proof.
  intros H. apply normalize_icmp_ok in H. destruct H as (N & _ & n & table & nums & Fam & _ & F2 & Pm). split.
  - intros ->. apply Permutation.Permutation_nil in Pm. subst nums. inversion F2. congruence.
  - intros k I. apply (Permutation.Permutation_in _ Pm) in I. destruct (NamingProofs.Forall2_in_r _ _ _ _ F2 I) as (u & Iu & U).
    assert (T : exists v, table = icmp_types_of v) by (destruct Fam as [(_ & _ & ->)|(_ & _ & ->)]; [exists V4|exists V6]; reflexivity). destruct T as (v & ->).
    split; [exact (types_nonneg _ _ _ U)|]. intros ->. apply no_zero_type in U. congruence.
Qed.
Lemma applied_meaning b name action src dst t types g b' note : (forall x, g = Some x -> header_word x) ->
  applied_says (rule_tree b name action (side_tree "source" src) (side_tree "destination" dst) (services_tree t types) (group_tree (squeezed_group g)) b' note) g.
Proof.
  intros W. assert (T : no_tag "appliedToList" (el "name" name :: el "action" action :: side_tree "source" src ++ side_tree "destination" dst ++ services_tree t types)).
  { apply no_tag_cons; [discriminate|]. apply no_tag_cons; [discriminate|]. repeat apply no_tag_app; [apply no_tag_side; [left; reflexivity|discriminate]|apply no_tag_side; [right; left; reflexivity|discriminate]|apply no_tag_services; discriminate]. }
  assert (C : forall k, child (rule_tree b name action (side_tree "source" src) (side_tree "destination" dst) (services_tree t types) (group_tree (squeezed_group g)) b' note) "appliedToList" k <-> In k (group_tree (squeezed_group g))).
  { intros k. pose proof (child_mid (rule_head b) _ (group_tree (squeezed_group g)) (opt_tree b' "notes" note) "appliedToList" k T) as X. cbn [app] in X. rewrite <- !app_assoc in X. apply X; [apply no_tag_opt; discriminate|].
    intros x J. unfold group_tree in J. destruct (squeezed_group g) as [w|]; [|destruct J]. destruct (is_empty w); [destruct J|]. destruct J as [<-|[]]. reflexivity. }
  destruct g as [w|]; cbn [applied_says]; [|intros k X; apply C in X; destruct X]. destruct (W w eq_refl) as (N & _ & Nw).
  cbn [squeezed_group option_map] in *. rewrite (squeeze_no_ws w false Nw) in *. unfold group_tree in C at 2. destruct (is_empty w) eqn:E; [destruct w; [congruence|discriminate E]|].
  exists (Elem "appliedToList" [Elem "appliedTo" [el "type" "SecurityGroup"; el "value" w]]), (Elem "appliedTo" [el "type" "SecurityGroup"; el "value" w]).
  split; [apply C; left; reflexivity|]. split; [split; [left; reflexivity|reflexivity]|]. split.
  - apply (holds_mid "appliedTo" [] [el "value" w]); [reflexivity|discriminate|apply no_tag_nil|apply no_tag_cons; [discriminate|apply no_tag_nil]|reflexivity].
  - apply (holds_mid "appliedTo" [el "type" "SecurityGroup"] []); [reflexivity|exact N|apply no_tag_cons; [discriminate|apply no_tag_nil]|apply no_tag_nil|reflexivity].
Qed.
Lemma nv_term_rule kind g t a rest w r : In kind nsx_kinds -> nv_term_ok (nsx_versions kind) t -> meant_for "nsxv" t -> quiet "nsxv" t -> (forall x, g = Some x -> header_word x) ->
  t_action t = a :: rest -> nv_verdict a = Some w -> nv_term (kind, g, term_family kind t, t) = Ok r ->
  exists l, xtexts l = (match r with Some s => s | None => "" end) /\ (forall x, In x l -> readable x /\ applied_says x g) /\
    forall p o, nv_traffic kind p -> ((exists x, In x l /\ nv_rule_says p x o) <-> term_matches t p /\ o = w).
Proof.
  intros Hk K M Q Wg Ea Ew H. assert (Pg : forall x, g = Some x -> plain x) by (intros x X; apply (Wg x X)). unfold nv_term in H. rewrite (proj2 (nv_meant t) M) in H. destruct (families_versions kind t Hk) as (Fv & Hv).
  assert (None_ : r = None -> (forall p, nv_traffic kind p -> ~ term_matches t p) -> exists l, xtexts l = (match r with Some s => s | None => "" end) /\ (forall x, In x l -> readable x /\ applied_says x g) /\
    forall p o, nv_traffic kind p -> ((exists x, In x l /\ nv_rule_says p x o) <-> term_matches t p /\ o = w)).
  { intros -> X. exists []. split; [reflexivity|]. split; [intros x []|]. intros p o T. split; [intros (x & [] & _)|intros (Y & _); destruct (X p T Y)]. }
  destruct (ver_eqb (term_family kind t) V6 && str_in "icmp" (t_protocol t) || ver_eqb (term_family kind t) V4 && str_in "icmpv6" (t_protocol t)) eqn:Ic.
  { apply ok_inj in H. apply None_; [auto|]. intros p T Mt.
    rewrite (quiet_matches "nsxv" t p Q (nt_platform _ _ T)) in Mt. destruct Mt as (_ & _ & Mp & _). pose proof (nt_icmp _ _ T) as Ni. destruct (nt_family _ _ T) as (_ & Fi).
    apply orb_true_iff in Ic. unfold term_family in Ic.
    destruct Hk as [<-|[<-|[<-|[]]]]; cbn [String.eqb Ascii.eqb Bool.eqb orb andb ver_eqb] in Ic.
    - destruct Ic as [Ic|Ic]; [discriminate Ic|]. apply str_in_spec in Ic. pose proof (nw_icmp4 _ _ K eq_refl Ic) as E. rewrite E in Mp. destruct Fi as [Fi|[]]. rewrite <- Fi in Ni.
      destruct Mp as [X|(q & [<-|[]] & X)]; [discriminate X|]. apply Ni. exact X.
    - destruct Ic as [Ic|Ic]; [|discriminate Ic]. apply str_in_spec in Ic. pose proof (nw_icmp6 _ _ K eq_refl Ic) as E. rewrite E in Mp. destruct Fi as [Fi|[]]. rewrite <- Fi in Ni.
      destruct Mp as [X|(q & [<-|[]] & X)]; [discriminate X|]. apply Ni. exact X.
    - destruct (str_in "icmpv6" (t_protocol t)) eqn:E6; cbn [ver_eqb andb] in Ic.
      + apply str_in_spec in E6. destruct Ic as [Ic|Ic]; [|discriminate Ic]. apply str_in_spec in Ic. exact (nw_icmp _ _ K eq_refl E6 Ic).
      + destruct Ic as [Ic|Ic]; discriminate Ic. }
  destruct (some (t_verbatim t)); [discriminate H|]. rewrite (nw_option _ _ K), Ea in H. cbv zeta in H. rewrite nv_verdict_actions, Ew, Fv in H.
  apply bind_ok in H. destruct H as (types & Ht & H). apply bind_ok in H. destruct H as ((s, d) & Hs & H).
  unfold nv_sides in Hs. cbv zeta in Hs.
  apply bind_ok in Hs. destruct Hs as (s4 & H1 & Hs). apply bind_ok in Hs. destruct Hs as (d4 & H2 & Hs). apply bind_ok in Hs. destruct Hs as (s6 & H3 & Hs). apply bind_ok in Hs. destruct Hs as (d6 & H4 & Hs).
  apply ok_inj, pair_equal_spec in Hs. destruct Hs as (<- & <-).
  destruct (nv_side_spec _ _ _ _ _ (nw_src _ _ K) H1 H3) as (Vs & S4 & S6 & Gs). destruct (nv_side_spec _ _ _ _ _ (nw_dst _ _ K) H2 H4) as (Vd & D4 & D6 & Gd).
  pose proof (mismatch_spec (String.eqb kind "mixed") s4 s6 d4 d6 S4 S6 D4 D6) as Mm. destruct (nsx_mismatch _ _ _) as [(src, dst)|].
  2: { apply ok_inj in H. apply None_; [auto|]. intros p T Mt. rewrite (quiet_matches "nsxv" t p Q (nt_platform _ _ T)) in Mt. destruct Mt as (M1 & M2 & _). destruct (nt_family _ _ T) as (F1 & F2).
       apply (Mm (p_src p) (p_dst p) F1). split; [apply Gs; assumption|apply Gd; [rewrite <- F1; exact F2|exact M2]]. }
  clear None_. destruct Mm as (I1 & I2 & Mm). apply ok_inj in H.
  assert (Vsrc : valid_list src) by (unfold valid_list in *; rewrite Forall_forall in *; intros n I; apply Vs, I1, I).
  assert (Vdst : valid_list dst) by (unfold valid_list in *; rewrite Forall_forall in *; intros n I; apply Vd, I2, I).
  set (ts := match types with Some l => l | None => [] end).
  assert (Tn : (match types with Some l => map Some l | None => [None] end) = or_any ts /\ (forall k, In k ts -> 0 <= k /\ (k = 0 -> In "echo-reply" (t_icmp_type t)))).
  { unfold ts. destruct (some (t_protocol t) && some (t_icmp_type t)); [|apply ok_inj in Ht; subst types; split; [reflexivity|intros k []]].
    destruct types as [l|]; [|split; [reflexivity|intros k []]]. apply type_numbers in Ht. destruct Ht as (N & X). split; [destruct l; [congruence|reflexivity]|exact X]. }
  destruct Tn as (Te & Tk). rewrite Te in H.
  assert (Nz : ~ In (Some 0) (or_any ts)).
  { intros X. apply or_any_in in X. destruct X as [(X & _)|(k & X & I)]; [discriminate X|]. injection X as <-. apply (nw_reply _ _ K). exact (proj2 (Tk 0 I) eq_refl). }
  assert (Np : forall k, In (Some k) (or_any ts) -> 0 <= k).
  { intros k X. apply or_any_in in X. destruct X as [(X & _)|(k' & X & I)]; [discriminate X|]. injection X as <-. apply Tk, I. }
  destruct (verdict_tidy a w Ew) as (W1 & W2 & W3). destruct (nw_plain _ _ K) as (Pn & Pc).
  rewrite rule_text in H by (first [exact Nz|intros q I; apply (nw_protocol _ _ K), I]).
  destruct (rule_read (some (t_logging t)) (t_name t) w (side_tree "source" src) (side_tree "destination" dst) (services_tree t (or_any ts)) (group_tree g) (some (t_comment t)) (nv_cat (t_comment t)) _ _ _ _
    Pn W2 W3 (plain_cat _ Pc) (sides_read "source" src (or_introl eq_refl) Vsrc) (sides_read "destination" dst (or_intror (or_introl eq_refl)) Vdst)
    (services_read t (or_any ts) (nw_protocol _ _ K) (nw_range _ _ K) Np) (group_read g Pg)) as (Ge & Se).
  set (rt := rule_tree _ _ _ _ _ _ _ _ _) in H, Ge, Se. destruct (gel_tree rt Ge) as (Gd' & Ti). rewrite (squeeze_tree rt Ti), Se in H. unfold rule_tree in H at 1. rewrite rstrip_tree in H. fold (rule_tree (some (t_logging t)) (squeeze false (t_name t)) w (side_tree "source" src) (side_tree "destination" dst) (services_tree t (or_any ts)) (group_tree (squeezed_group g)) (some (t_comment t)) (squeeze false (nv_cat (t_comment t)))) in H.
  exists [sq rt]. split; [rewrite xtexts_one, Se, <- H; reflexivity|]. split.
  { intros x [<-|[]]. split; [|rewrite Se; apply applied_meaning, Wg]. apply good_sq in Gd'. cbn [map] in Gd'. unfold rt, rule_tree in *. rewrite sq_elem in *. inversion Gd'; subst. split; assumption. }
  intros p o T. destruct (nt_family _ _ T) as (F1 & F2).
  assert (E1 : (exists x, In x [sq rt] /\ nv_rule_says p x o) <-> nv_rule_says p (sq rt) o) by (split; [intros (x & [<-|[]] & X); exact X|intros X; exists (sq rt); split; [left; reflexivity|exact X]]).
  rewrite E1, Se, rule_meaning; [|exact W1|exact Vsrc|exact Vdst|exact (nt_src _ _ T)|exact (nt_dst _ _ T)].
  rewrite (quiet_matches "nsxv" t p Q (nt_platform _ _ T)), (nw_option _ _ K). rewrite <- (Gs (p_src p) F2), <- (Gd (p_dst p)) by (rewrite <- F1; exact F2). pose proof (Mm (p_src p) (p_dst p) F1) as Gm.
  set (F := flat_map _ _).
  assert (Sv : (some (t_protocol t) = false \/ F = [] \/ exists e, In e F /\ nv_service_says p e) <->
    any_or (t_protocol t) (eq (p_proto p)) /\ ports_match (t_source_port t) (p_sport p) /\ ports_match (t_destination_port t) (p_dport p) /\ any_or (t_icmp_type t) (eq (p_icmp_type p))).
  { destruct (nil_or_not (t_protocol t)) as [E0|N0].
    - assert (P1 : t_source_port t = []). { destruct (nil_or_not (t_source_port t)) as [E|N]; [exact E|]. destruct (nw_ports _ _ K (or_introl N)) as (X & _). contradiction. }
      assert (P2 : t_destination_port t = []). { destruct (nil_or_not (t_destination_port t)) as [E|N]; [exact E|]. destruct (nw_ports _ _ K (or_intror N)) as (X & _). contradiction. }
      rewrite E0, P1, P2. split; [intros _|intros _; left; reflexivity]. split; [left; reflexivity|]. split; [left; reflexivity|]. split; [left; reflexivity|].
      destruct (nil_or_not (t_icmp_type t)) as [E|N]; [left; exact E|]. exfalso. exact (nw_types _ _ K N E0).
    - rewrite (proj2 (some_not_nil _) N0) in *. cbn [andb] in Ht. destruct (types_spec _ t types p Ht) as (Ti' & Tn & Tm). fold ts in Tm.
      pose proof (fun q (I : In q (t_protocol t)) => service_meaning q (t_source_port t) (t_destination_port t) ts p (proj1 (nw_protocol _ _ K q I)) (proj2 (nw_protocol _ _ K q I)) (nw_range _ _ K) (fun k Ik => proj1 (Tk k Ik))) as Ss.
      assert (Ty : forall q, In q (t_protocol t) -> p_proto p = q -> ((forall v : ver, q = kind_of_icmp v -> ts = [] \/ exists k, In k ts /\ In (p_icmp_type p, k) (icmp_types_of v)) <-> any_or (t_icmp_type t) (eq (p_icmp_type p)))).
      { intros q Iq Eq. destruct (nil_or_not (t_icmp_type t)) as [E|N].
        - assert (Et : ts = []) by (unfold ts; rewrite (Tn E); reflexivity). rewrite E, Et. split; [left; reflexivity|auto].
        - rewrite <- Tm. pose proof (Ti' N) as Ep. rewrite Ep in Iq. destruct Iq as [<-|[]]. split.
          + intros X. exact (X _ eq_refl).
          + intros X v Ev. destruct v, (term_family kind t); try discriminate Ev; exact X. }
      assert (Po : forall q, In q (t_protocol t) -> ((q <> "icmp" /\ q <> "icmpv6" -> ports_match (t_source_port t) (p_sport p) /\ ports_match (t_destination_port t) (p_dport p)) <-> ports_match (t_source_port t) (p_sport p) /\ ports_match (t_destination_port t) (p_dport p))).
      { intros q Iq. split; [|tauto]. intros X. destruct (nil_or_not (t_source_port t)) as [A1|A1]; [destruct (nil_or_not (t_destination_port t)) as [A2|A2]|].
        - rewrite A1, A2. split; left; reflexivity.
        - destruct (nw_ports _ _ K (or_intror A2)) as (_ & Y). apply X. destruct (Y q Iq) as [<-|[<-|[]]]; split; discriminate.
        - destruct (nw_ports _ _ K (or_introl A1)) as (_ & Y). apply X. destruct (Y q Iq) as [<-|[<-|[]]]; split; discriminate. }
      split.
      + intros [X|[X|(e & I & S)]]; [discriminate X| |].
        * exfalso. unfold F in X. destruct (t_protocol t) as [|q l] eqn:Eq; [congruence|]. cbn [flat_map] in X. apply app_eq_nil in X. destruct (Ss q (or_introl eq_refl)) as (_ & Y). exact (Y (proj1 X)).
        * apply in_flat_map in I. destruct I as (q & Iq & I). destruct (proj1 (proj1 (Ss q Iq))) as (A1 & A2 & A3); [eauto|].
          split; [right; exists q; auto|]. destruct (proj1 (Po q Iq) A2) as (A4 & A5). split; [exact A4|]. split; [exact A5|]. apply (Ty q Iq A1). exact A3.
      + intros (Mp & P1 & P2 & P3). right. right. destruct Mp as [X|(q & Iq & Eq)]; [contradiction|].
        destruct (proj2 (proj1 (Ss q Iq))) as (e & I & S).
        { split; [exact Eq|]. split; [auto|]. apply (Ty q Iq Eq). exact P3. }
        exists e. split; [apply in_flat_map; exists q; auto|exact S]. }
  rewrite Sv. split.
  - intros (-> & A & B & C1 & C2 & C3 & C4). destruct (proj1 Gm (conj A B)) as (X1 & X2). split; [|reflexivity]. split; [exact X1|]. split; [exact X2|]. split; [exact C1|]. split; [exact C2|]. split; [exact C3|]. split; [intros o' []|exact C4].
  - intros ((M1 & M2 & M3 & M4 & M5 & _ & M7) & ->). destruct (proj2 Gm (conj M1 M2)) as (X1 & X2). auto 8.
Qed.

(** ** Policies *)
Lemma nv_renamed_ok vs n t : plain n -> nv_term_ok vs t -> nv_term_ok vs (set_name n t).
Proof. intros P [A B C D E F G H I J K L M]. constructor; try assumption. split; [exact P|apply L]. Qed.
Definition texts_of (r : option string) : list string := match r with Some j => [j] | None => [] end.
Definition nv_block (today : Z) (kind : string) (g : option string) (t : term) (b : list xml) : Prop :=
  (forall p o, nv_traffic kind p -> ((exists x, In x b /\ nv_rule_says p x o) <-> nv_term_says today p t o)) /\ forall x, In x b -> readable x /\ applied_says x g.
Lemma nv_no_block today kind g t : (forall p o, ~ nv_term_says today p t o) -> nv_block today kind g t [].
Proof. intros H. split; [|intros x []]. intros p o _. split; [intros (j & [] & _)|intros S; destruct (H p o S)]. Qed.
Lemma nv_terms_blocks today filters ts kind g : In kind nsx_kinds -> (forall x, g = Some x -> header_word x) -> check_tokens "nsxv" nv_tokens filters = Ok tt -> In (["nsxv"], ts) filters ->
  nv_terms_ok today kind ts ->
  forall terms seen es rs, incl terms ts -> nv_terms today kind g seen terms = Ok es -> mapM nv_term es = Ok rs ->
  exists blocks, Forall2 (nv_block today kind g) terms blocks /\ nv_cat (flat_map texts_of rs) = xtexts (concat blocks).
Proof.
  intros Hk Wg Ck If K. induction terms as [|t terms IH]; intros seen es rs Inc H Hm; cbn [nv_terms] in H.
  - apply ok_inj in H. subst es. cbn [mapM] in Hm. apply ok_inj in Hm. subst rs. exists []. split; [constructor|reflexivity].
  - assert (Inc' : incl terms ts) by (intros x I; apply Inc; right; exact I). assert (It : In t ts) by (apply Inc; left; reflexivity).
    destruct (str_in (t_name t) seen); [discriminate H|]. cbv zeta in H.
    assert (Skip : (forall p o, ~ nv_term_says today p t o) -> nv_terms today kind g (t_name t :: seen) terms = Ok es ->
      exists blocks, Forall2 (nv_block today kind g) (t :: terms) blocks /\ nv_cat (flat_map texts_of rs) = xtexts (concat blocks)).
    { intros N H'. destruct (IH _ _ _ Inc' H' Hm) as (blocks & F & E). exists ([] :: blocks). split; [constructor; [apply nv_no_block, N|exact F]|exact E]. }
    destruct (expired today t) eqn:Ex.
    { apply Skip; [|exact H]. intros p o (Fo & _). apply expired_force in Fo. congruence. }
    destruct (t_action t) as [|a rest] eqn:Ea; [discriminate H|]. rewrite nv_verdict_actions in H.
    destruct (nv_verdict a) as [w|] eqn:Ew.
    2: { apply Skip; [|exact H]. intros p o (_ & _ & _ & _ & a' & r' & E & X). rewrite Ea in E. injection E as <- <-. congruence. }
    clear Skip. apply bind_ok in H. destruct H as (n & Hn & H). fold (term_family kind t) in H. apply CiscoGroupAcl.length_same in Hn.
    apply bind_ok in H. destruct H as (t' & Hh & H). apply bind_ok in H. destruct H as (more & Hmore & H). apply ok_inj in H. subst es.
    cbn [mapM] in Hm. apply bind_ok in Hm. destruct Hm as (r & Hr & Hm). apply bind_ok in Hm. destruct Hm as (rs' & Hrs & Hm). apply ok_inj in Hm. subst rs.
    destruct (IH _ _ _ Inc' Hmore Hrs) as (blocks & F & E).
    assert (Fin : forall b, nv_block today kind g t b -> xtexts b = (match r with Some s => s | None => "" end) -> exists blocks, Forall2 (nv_block today kind g) (t :: terms) blocks /\ nv_cat (flat_map texts_of (r :: rs')) = xtexts (concat blocks)).
    { intros b Hb Tb. exists (b :: blocks). split; [constructor; assumption|]. cbn [flat_map concat]. rewrite xtexts_app, <- E, Tb. destruct r; reflexivity. }
    apply fix_high_ports_spec in Hh. destruct Hh as (_ & _ & Hh).
    assert (Same : t_platform t' = t_platform t /\ t_platform_exclude t' = t_platform_exclude t /\ t_option t' = t_option t).
    { destruct Hh as [(_ & ->)|[(_ & X & _)|(_ & _ & ->)]]; [auto|discriminate X|auto]. }
    destruct Same as (Sp & Sx & So).
    destruct ((some (t_platform t) && negb (str_in "nsxv" (t_platform t))) || (some (t_platform_exclude t) && str_in "nsxv" (t_platform_exclude t))) eqn:Mt.
    { unfold nv_term in Hr. rewrite Sp, Sx, Mt in Hr. apply ok_inj in Hr. subst r. apply (Fin []); [|reflexivity]. apply nv_no_block. intros p o (_ & M & _). apply nv_meant in M. congruence. }
    apply nv_meant in Mt.
    destruct (str_in "established" (t_option t) || str_in "tcp-established" (t_option t)) eqn:Es.
    { assert (Er : r = None).
      { unfold nv_term in Hr. destruct (_ || _) in Hr; [apply ok_inj in Hr; auto|]. destruct (_ || _) in Hr; [apply ok_inj in Hr; auto|]. destruct (some (t_verbatim t')); [discriminate Hr|].
        rewrite So in Hr. destruct (t_option t) as [|o l]; [discriminate Es|]. destruct (_ || _) in Hr; [apply ok_inj in Hr; auto|discriminate Hr]. }
      subst r. apply (Fin []); [|reflexivity]. apply nv_no_block. intros p o (_ & _ & (N1 & N2) & _). apply orb_true_iff in Es. destruct Es as [Es|Es]; apply str_in_spec in Es; contradiction. }
    apply orb_false_iff in Es. destruct Es as (E1 & E2). assert (Ne : not_established t) by (split; intros X; apply str_in_spec in X; congruence).
    assert (Fo : in_force today t) by (apply expired_force, Ex). pose proof (K t It Fo Mt Ne) as Kt.
    assert (Et : t' = set_name n t).
    { destruct Hh as [(_ & X)|[(_ & X & _)|((o & I & _) & _)]]; [exact X|discriminate X|]. change (t_option (set_name n t)) with (t_option t) in I. rewrite (nw_option _ _ Kt) in I. destruct I. }
    subst t'. destruct (nw_warned _ _ Kt) as (A1 & A2 & A3 & A4 & A5 & A6).
    assert (Q : quiet "nsxv" t).
    { refine (AsaPolicy.accepted_quiet_logged "nsxv" nv_tokens filters ["nsxv"] ts t _ Ck If (or_introl eq_refl) It Mt A1 A2 A3 A4 A5 A6).
      intros s. change (supported nv_tokens) with (supported default_tokens ++ ["logging"]). unfold str_in, memb. rewrite existsb_app. cbn [existsb]. intros X. apply orb_false_iff in X. destruct X as (_ & X). apply orb_false_iff in X. destruct X as (X2 & X).
      rewrite X, X2. reflexivity. }
    assert (Pn : plain n) by (rewrite Hn; exact (proj1 (nw_plain _ _ Kt))).
    destruct (nv_term_rule kind g (set_name n t) a rest w r Hk (nv_renamed_ok _ _ _ Pn Kt) Mt (renamed_quiet _ _ _ Q) Wg Ea Ew Hr) as (l & Tl & Rl & S).
    apply (Fin l); [|exact Tl]. split; [|exact Rl].
    intros p o T. specialize (S p o T). change (term_matches (set_name n t) p) with (term_matches t p) in S. unfold nv_term_says. rewrite S. split.
    + intros (S1 & ->). repeat (split; [assumption|]). exists a, rest. auto.
    + intros (_ & _ & _ & S1 & a' & r' & Ea' & Ew'). rewrite Ea in Ea'. injection Ea' as <- <-. split; [exact S1|congruence].
Qed.
Lemma nv_translate_none today shared fs : (forall f, In f fs -> fst f = None) -> nv_translate today shared fs = Ok ([], shared).
Proof.
  induction fs as [|(h, terms) fs IH]; intros H; [reflexivity|]. cbn [nv_translate]. pose proof (H (h, terms) (or_introl eq_refl)) as E; cbn [fst] in E; rewrite E. apply IH. intros f I. apply H. right. exact I.
Qed.
Lemma nv_translate_skip today shared before fs : (forall f, In f before -> fst f = None) -> nv_translate today shared (before ++ fs) = nv_translate today shared fs.
Proof.
  induction before as [|(h, terms) before IH]; intros H; [reflexivity|]. cbn [nv_translate app]. pose proof (H (h, terms) (or_introl eq_refl)) as E; cbn [fst] in E; rewrite E. apply IH. intros f I. apply H. right. exact I.
Qed.
Lemma scope_word l g : nv_scope l = Ok g -> g = group_word l.
Proof. induction l as [|x l IH]; cbn [nv_scope group_word]; [intros H; apply ok_inj in H; auto|]. destruct (String.eqb x "securitygroup"); [|exact IH]. destruct l; [discriminate|]. intros H. apply ok_inj in H. auto. Qed.
Lemma group_word_in l w : group_word l = Some w -> In w l.
Proof. induction l as [|x l IH]; cbn [group_word]; [discriminate|]. destruct (String.eqb x "securitygroup"); [|intros H; right; exact (IH H)]. destruct l as [|y l]; [discriminate|]. intros H. injection H as <-. right. left. reflexivity. Qed.
Lemma strip_word s : header_word s -> strip s = s.
Proof. intros (_ & _ & H). unfold strip. rewrite (lstrip_no_ws s H). apply rstrip_no_ws. exact H. Qed.
Lemma nv_parse_kind name kind more o : nv_parse (name :: kind :: more) = Ok o -> header_word name -> (forall w, In w more -> header_word w) ->
  In kind nsx_kinds /\ nv_kind o = kind /\ nv_applied o = group_word more /\ nv_head o = section_head name more.
Proof.
  unfold nv_parse. destruct (3 <? List.length more)%nat; [discriminate|]. destruct (str_in kind ["inet"; "inet6"; "mixed"]) eqn:Ek; [|discriminate].
  cbn [negb]. cbv zeta. intros H Wn Wm. apply bind_ok in H. destruct H as (scope & Hs & H). apply ok_inj in H. subst o. cbn [nv_kind nv_applied]. apply str_in_spec in Ek. split; [exact Ek|]. split; [reflexivity|].
  apply scope_word in Hs. unfold nv_head, section_head. cbn [nv_name nv_id]. rewrite (strip_word name Wn). destruct more as [|x more]; [auto|]. cbn [group_word]. destruct (String.eqb x "securitygroup") eqn:E.
  - cbn [group_word] in Hs. rewrite E in Hs. auto.
  - cbn [tl] in Hs. split; [exact Hs|]. destruct (Wm x (or_introl eq_refl)) as (N & _). destruct x; [congruence|]. cbn [is_empty append]. do 12 f_equal. cbn [append]. f_equal. rewrite !app_assoc_str. reflexivity.
Qed.
Lemma section_head_ok name more : header_word name -> (forall w, In w more -> header_word w) -> head_ok (section_head name more) = true /\ tag_of (section_head name more) = "section".
Proof.
  intros (_ & (N1 & N2 & N3) & _) W. unfold section_head. cbv zeta.
  assert (Q : forall c, c <> dquote -> forall s, has_char c s = false -> has_char c (String dquote (s ++ String dquote "")) = false).
  { intros c X s H. assert (Y : Ascii.eqb dquote c = false) by (destruct (Ascii.eqb dquote c) eqn:E; [apply Ascii.eqb_eq in E; congruence|reflexivity]). cbn [has_char]. rewrite Y, has_char_app, H. cbn [has_char]. rewrite Y. reflexivity. }
  assert (O : forall c, In c ["<"; ">"; "&"]%char -> c <> dquote) by (intros c [<-|[<-|[<-|[]]]]; discriminate).
  assert (A : forall c, In c ["<"; ">"; "&"]%char -> has_char c name = false) by (intros c [<-|[<-|[<-|[]]]]; assumption).
  assert (B : forall c, In c ["<"; ">"; "&"]%char -> has_char c (section_head name more) = false).
  { intros c Ic. unfold section_head. cbv zeta. destruct more as [|w more]; [|destruct (String.eqb w "securitygroup")]; rewrite !has_char_app, !(Q c (O c Ic)) by (first [apply A, Ic|destruct (W w (or_introl eq_refl)) as (_ & (W1 & W2 & W3) & _); destruct Ic as [<-|[<-|[<-|[]]]]; assumption]);
    destruct Ic as [<-|[<-|[<-|[]]]]; reflexivity. }
  split; [|destruct more as [|w more]; [reflexivity|]; destruct (String.eqb w "securitygroup"); reflexivity].
  unfold head_ok. fold (section_head name more). rewrite !B by (cbn; auto). unfold section_head. cbv zeta. destruct more as [|w more]; [reflexivity|]. destruct (String.eqb w "securitygroup"); reflexivity.
Qed.
Theorem nv_decides_spec today shared fs name kind more terms text : nv_asks fs name kind more terms -> header_word name -> (forall w, In w more -> header_word w) ->
  nv_policy today shared fs = Ok text -> nv_terms_ok today kind terms ->
  exists rules, read_document text = Some (Elem (section_head name more) rules) /\
    (forall r, In r rules -> applied_says r (group_word more)) /\
    forall p o, nv_traffic kind p -> (nv_decides (Elem (section_head name more) rules) p o <-> first_says (nv_term_says today p) terms o).
Proof.
  intros (before & after & -> & N) Wn Wm H K. unfold nv_policy, nv_new in H. apply bind_ok in H. destruct H as ((obj, shared') & H & Hs).
  apply bind_ok in H. destruct H as ([] & Ck & H). rewrite nv_translate_skip in H by (intros f I; apply N, in_app_iff; auto). cbn [nv_translate] in H.
  apply bind_ok in H. destruct H as (o0 & Ho & H). apply bind_ok in H. destruct H as (es & He & H). rewrite nv_translate_none in H by (intros f I; apply N, in_app_iff; auto). cbn [bind] in H.
  apply ok_inj, pair_equal_spec in H. destruct H as (<- & <-). cbn [nv_str] in Hs. apply bind_ok in Hs. destruct Hs as (rs & Hr & Hs). apply ok_inj in Hs.
  destruct (nv_parse_kind _ _ _ _ Ho Wn Wm) as (Hk & Ek & Eg & Eh). rewrite Ek, Eg in He.
  assert (If : In (["nsxv"], terms) (map (fun f : option (list string) * list term => (match fst f with Some _ => ["nsxv"] | None => [] end, snd f)) (before ++ (Some (name :: kind :: more), terms) :: after))).
  { apply in_map_iff. exists (Some (name :: kind :: more), terms). split; [reflexivity|]. apply in_app_iff. right. left. reflexivity. }
  assert (Wg : forall x, group_word more = Some x -> header_word x) by (intros x X; apply Wm, group_word_in, X).
  destruct (nv_terms_blocks today _ terms kind (group_word more) Hk Wg Ck If K terms [] es rs (incl_refl _) He Hr) as (blocks & F & Eb).
  destruct (section_head_ok name more Wn Wm) as (Hok & Htag).
  assert (Rd : forall x, In x (concat blocks) -> readable x /\ applied_says x (group_word more)).
  { intros x I. apply in_concat in I. destruct I as (b & Ib & I). destruct (NamingProofs.Forall2_in_r _ _ _ _ F Ib) as (t & _ & (_ & A)). exact (A x I). }
  exists (concat blocks). split; [|split].
  - rewrite <- Hs. clear Hs. rewrite Eh. fold texts_of. change (flat_map (fun r => match r with Some j => [j] | None => [] end) rs) with (flat_map texts_of rs). rewrite Eb.
    pose proof (read_document_ok (nv_cat (add_repository_tags (String newline "") true true true false)) (section_head name more) (concat blocks) Hok (readable_all _ (fun x I => proj1 (Rd x I))) (fun r => eq_refl)) as R.
    rewrite xtext_elem, Htag in R. rewrite <- R. f_equal. rewrite !app_assoc_str. reflexivity.
  - intros r I. apply Rd, I.
  - intros p o T. unfold nv_decides. cbn [kids_of tag_is]. rewrite Htag.
    assert (Eq : first_says (nv_rule_says p) (concat blocks) o <-> first_says (nv_term_says today p) terms o).
    { apply first_says_blocks. clear - F T. induction F as [|t b terms blocks (B & _) F IH]; constructor; [|exact IH]. split; [intros o; apply B, T|].
      intros o o' (_ & _ & _ & _ & a & r & E & W) (_ & _ & _ & _ & a' & r' & E' & W'). rewrite E in E'. injection E' as <- <-. congruence. }
    rewrite Eq. tauto.
Qed.
