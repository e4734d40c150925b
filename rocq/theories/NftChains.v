(** The chains of an nftables filter decide as its terms. *)
From Coq Require Import Lia ZifyBool ZifyNat.
From Verif Require Import SpecNft BaseFacts PyStrFacts TextProofs CiscoProofs CiscoProofs2 CiscoTerm CiscoAcl CiscoEst GenProofs GenProofs2 IPFacts ExcludeProofs NftText NftTerm NftRule NftRuleset.
Local Open Scope string_scope.
Local Open Scope list_scope.
Local Open Scope Z_scope.

(** ** Exclusions *)

Lemma remove_all_spec exc : forall l, valid_list l -> valid_list exc ->
  exists r, remove_all l exc = Ok r /\ valid_list r /\ forall x, covered r x <-> covered l x /\ ~ covered exc x.
Proof.
  induction exc as [|e exc IH]; intros l Vl Ve; cbn [remove_all].
  - exists l. split; [reflexivity|]. split; [exact Vl|]. intros x. split; [intros H; split; [exact H|intros (n & [] & _)]|tauto].
  - inversion Ve as [|? ? Ve1 Ve2]; subst. destruct (remove_address_spec l e Vl Ve1) as (r1 & -> & V1 & _ & C1). cbn [bind].
    destruct (IH r1 V1 Ve2) as (r & -> & V & C). exists r. split; [reflexivity|]. split; [exact V|]. intros x. rewrite C, C1.
    assert (X : covered (e :: exc) x <-> covers e x \/ covered exc x).
    { split; [intros (n & [<-|I] & K); [auto|right; exists n; auto]|intros [K|(n & I & K)]; [exists e|exists n]; cbn; auto]. }
    rewrite X. tauto.
Qed.
Lemma remove_nil exc : remove_all [] exc = Ok [].
Proof. induction exc as [|e exc IH]; [reflexivity|]. cbn [remove_all]. exact IH. Qed.
Lemma side_exact inc exc : nft_side inc exc -> exists r, remove_all inc exc = Ok r /\ valid_list r /\ forall x, (r = [] \/ covered r x) <-> side_matches inc exc x.
Proof.
  intros (Vi & Ve & L). destruct exc as [|e exc].
  - exists inc. split; [reflexivity|]. split; [exact Vi|]. intros x. unfold side_matches. split; [intros H; split; [exact H|intros (n & [] & _)]|tauto].
  - destruct (L ltac:(discriminate)) as (y & Cy & Ny). destruct (remove_all_spec (e :: exc) inc Vi Ve) as (r & E & V & C). exists r. split; [exact E|]. split; [exact V|].
    intros x. unfold side_matches. rewrite <- (and_comm (~ _)).
    assert (Nr : r <> []) by (intros ->; destruct (proj2 (C y) (conj Cy Ny)) as (n & [] & _)).
    assert (Ni : inc <> []) by (intros ->; destruct Cy as (n & [] & _)). rewrite (C x). split; [intros [H|H]; [congruence|tauto]|intros (H1 & [H2|H2]); [congruence|tauto]].
Qed.

(** ** Terms *)

Lemma in_none {A} (P : A -> Prop) : none_of [] P.
Proof. intros a []. Qed.
Lemma any_nil {A} (P : A -> Prop) : any_or [] P.
Proof. left. reflexivity. Qed.
Lemma meant_place t p : p_platform p = "nftables" -> (any_or (t_platform t) (eq (p_platform p)) /\ none_of (t_platform_exclude t) (eq (p_platform p))) <-> meant_for "nftables" t.
Proof.
  intros ->. unfold meant_for, any_or, none_of. split.
  - intros ([A|(a & I & <-)] & B); (split; [auto|]); intros X; exact (B _ X eq_refl).
  - intros (A & B). split; [destruct A as [A|A]; [auto|right; exists "nftables"; auto]|]. intros a I <-. exact (B I).
Qed.
Lemma core_matches fams t src dst p : nft_term_ok fams t -> p_platform p = "nftables" -> meant_for "nftables" t ->
  (forall x, (src = [] \/ covered src x) <-> side_matches (t_source_address t) (t_source_address_exclude t) x) ->
  (forall x, (dst = [] \/ covered dst x) <-> side_matches (t_destination_address t) (t_destination_address_exclude t) x) ->
  core src dst t p <-> term_matches t p.
Proof.
  intros OK Pl Me Hs Hd. pose proof (proj2 (meant_place t p Pl) Me) as (M1 & M2). pose proof (nt_only _ _ OK) as On. pose proof (nt_option _ _ OK) as Oo.
  unfold only_nft_conditions in On.
  destruct On as (O1 & O2 & O3 & O4 & O5 & O6 & O7 & O8 & O9 & O10 & O11 & O12 & O13 & O14 & O15 & O16 & O17 & O18 & O19 & O20 & O21 & O22 & O23 & O24 & O25).
  unfold core, sides, pp_says, interface_says, term_matches, addresses_match, prefixes_match, options_match, numbers_match, place_matches, link_matches.
  rewrite (Hs (p_src p)), (Hd (p_dst p)), O1, O2, O5, O6, O7, O8, O9, O10, O11, O12, O13, O14, O15, O16, O17, O18, O19, O20, O21, O22, O23, O25, Oo.
  split.
  - intros ((S1 & S2) & (P1 & P2 & P3) & (I1 & I2)). repeat match goal with |- _ /\ _ => split end; try assumption;
      first [left; split; reflexivity | apply any_nil | apply in_none | exact Logic.I | (intros o []) | idtac].
  - intros ((_ & S1 & S2) & P1 & P2 & _ & _ & _ & P3 & _ & (_ & _ & _ & _ & I1 & I2 & _)). auto.
Qed.
Lemma est_out t p : reply_option t -> (p_option p "tcp-established" <-> p_option p "established") -> ~ p_option p "established" -> ~ term_matches t p.
Proof.
  intros R E N (_ & _ & _ & _ & (_ & O & _) & _). apply N. destruct R as [R|R]; [exact (O _ R)|apply E, O, R].
Qed.

(** ** The rendered chains of a filter *)

Definition chain_says (fams : list ver) (c : string * list string) (t : term) : Prop :=
  fst c = t_name t /\ nft_name (t_name t) = true /\ exists a rs, t_action t = [a] /\ all_some (map nft_line (snd c)) = Some (map NRule rs) /\
    (forall s, In s (snd c) -> has_char newline s = false) /\
    (forall r, In r rs -> nr_target r = Some (Verdict (nft_verdict a))) /\
    forall p, nft_traffic fams p -> ~ p_option p "established" -> (exists r, In r rs /\ nmeets r p) <-> term_matches t p.
Lemma rules_of verdict c lines : rules_say verdict lines c -> exists rs, all_some (map nft_line lines) = Some (map NRule rs) /\
  (forall s, In s lines -> has_char newline s = false) /\ (forall r, In r rs -> nr_target r = Some (Verdict verdict)) /\
  (forall r p, In r rs -> bounded p -> nmeets r p -> c p) /\ (forall p, some_meets lines p -> exists r, In r rs /\ nmeets r p).
Proof.
  induction lines as [|s lines IH]; intros R.
  - exists []. split; [reflexivity|]. split; [intros s []|]. split; [intros r []|]. split; [intros r p []|]. intros p (s & r & [] & _).
  - destruct IH as (rs & E & N & T & M & S). { intros x I. apply R. right. exact I. }
    destruct (R s (or_introl eq_refl)) as (d & (r & L & Tr & Mr & Nr) & K). exists (r :: rs). cbn [map all_some]. rewrite L, E. split; [reflexivity|].
    split; [intros x [<-|I]; auto|]. split; [intros x [<-|I]; auto|]. split.
    + intros x p [<-|I] B H; [apply (K p B), Mr, H|exact (M x p I B H)].
    + intros p (x & r' & [<-|I] & L' & H).
      * assert (r' = r) by congruence. subst r'. exists r. cbn. auto.
      * destruct (S p) as (y & Iy & Hy); [exists x, r'; auto|]. exists y. cbn. auto.
Qed.
Definition term_gives (p : packet) (t : term) (o : string) : Prop := term_matches t p /\ exists a, t_action t = [a] /\ o = nft_verdict a.
Lemma families_of i : In (families i) [[V4]; [V6]; [V4; V6]].
Proof. unfold families. destruct (String.eqb i "ip"); [cbn; auto|]. destruct (String.eqb i "ip6"); cbn; auto. Qed.
Lemma select_exact i today : forall terms seen chains, Forall (fun t => nft_term_applies today t -> nft_term_ok (families (ni_af i)) t) terms ->
  nft_select i today seen terms = Ok chains ->
  exists ts, Forall2 (chain_says (families (ni_af i))) chains ts /\ incl ts terms /\
    NoDup (map t_name ts) /\ (forall t, In t ts -> ~ In (t_name t) seen) /\
    forall p o, nft_traffic (families (ni_af i)) p -> ~ p_option p "established" -> first_says (term_gives p) ts o <-> first_says (nft_applies today p) terms o.
Proof.
  induction terms as [|t rest IH]; intros seen chains F H.
  { apply ok_inj in H. subst. exists []. split; [constructor|]. split; [intros x []|]. split; [constructor|]. split; [intros t []|].
    intros p o _ _. split; intros X; apply first_says_nil in X; destruct X. }
  inversion F as [|? ? Ft Fr]; subst. cbn [nft_select] in H.
  destruct (str_in (t_name t) seen) eqn:Sn; [discriminate H|]. apply str_in_false in Sn.
  destruct (given (t_source_interface t) && given (t_destination_interface t)) eqn:G; [discriminate H|].
  destruct (t_stateless_reply t || str_in "established" (t_option t) || str_in "tcp-established" (t_option t) || expired today t || negb (active_on "nftables" t)) eqn:Sk.
  - destruct (IH _ _ Fr H) as (ts & A1 & A2 & A3 & A4 & A5). exists ts. split; [exact A1|].
    split; [intros x I; right; exact (A2 x I)|]. split; [exact A3|]. split; [intros x I J; apply (A4 x I); right; exact J|].
    intros p o T Ne. rewrite (A5 p o T Ne), first_says_cons.
    assert (N : forall o, ~ nft_applies today p t o).
    { intros o' (Fo & Mt & _). destruct T as (_ & _ & Te & Tp). rewrite !orb_true_iff in Sk.
      assert (Nr : ~ reply_option t) by (intros R; exact (est_out t p R Te Ne Mt)).
      assert (Me : meant_for "nftables" t) by (apply (meant_place t p Tp); destruct Mt as (_ & _ & _ & _ & _ & _ & _ & (P1 & P2 & _) & _); auto).
      assert (OK : nft_term_ok (families (ni_af i)) t) by (apply Ft; repeat split; auto; try apply Me).
      destruct Sk as [[[[Sk|Sk]|Sk]|Sk]|Sk].
      - rewrite (nt_reply _ _ OK) in Sk. discriminate Sk.
      - apply str_in_iff in Sk. apply Nr. left. exact Sk.
      - apply str_in_iff in Sk. apply Nr. right. exact Sk.
      - unfold expired in Sk. destruct (t_expiration t) as [d|] eqn:Ed; [|discriminate Sk]. specialize (Fo d Ed). lia.
      - apply negb_true_iff in Sk. rewrite (proj2 (active_on_spec _ _) Me) in Sk. discriminate Sk. }
    split; [intros X; right; split; [exact X|]; intros a Y; destruct (N _ Y)|intros [X|(X & _)]; [destruct (N _ X)|exact X]].
  - rewrite !orb_false_iff in Sk. destruct Sk as ((((S1 & S2) & S3) & S4) & S5). apply negb_false_iff, active_on_spec in S5. apply str_in_false in S2, S3.
    assert (Fo : in_force today t) by (intros d Ed; unfold expired in S4; rewrite Ed in S4; lia).
    assert (OK : nft_term_ok (families (ni_af i)) t) by (apply Ft; repeat split; auto; try apply S5; intros [R|R]; auto).
    destruct (side_exact _ _ (nt_src _ _ OK)) as (src & Es & Vs & Cs). destruct (side_exact _ _ (nt_dst _ _ OK)) as (dst & Ed & Vd & Cd).
    rewrite Es, Ed in H. cbn [bind] in H.
    destruct (ruleset_exact (families (ni_af i)) (ni_verbose i) t src dst OK Vs Vd (families_of _) G) as (lines & a & El & Ea & Rl & Ml).
    rewrite El in H. cbn [bind] in H. destruct (nft_select i today (t_name t :: seen) rest) as [more|e] eqn:Em; [|discriminate H]. cbn [bind] in H. apply ok_inj in H. subst chains.
    destruct (IH _ _ Fr Em) as (ts & A1 & A2 & A3 & A4 & A5). exists (t :: ts).
    assert (Nn : forall x, In x ts -> t_name x <> t_name t) by (intros x I E; apply (A4 x I); left; symmetry; exact E).
    split; [|split; [|split; [|split]]].
    + constructor; [|exact A1]. split; [reflexivity|]. split; [apply (nt_name _ _ OK)|]. destruct (rules_of _ _ _ Rl) as (rs & R1 & R2 & R3 & R4 & R5).
      exists a, rs. split; [exact Ea|]. split; [exact R1|]. split; [exact R2|]. split; [exact R3|]. intros p T Ne.
      destruct T as ((v & Iv & F1 & F2 & B1 & B2 & Np) & Td & Te & Tp). rewrite <- (core_matches _ t src dst p OK Tp S5 Cs Cd). split.
      * intros (r & Ir & Hr). apply (R4 r p Ir); [|exact Hr]. split; [congruence|]. rewrite F1, F2. auto.
      * intros C. apply R5, Ml; [|exact C|exact Ne]. split; [exists v; auto 10|auto].
    + intros x [<-|I]; [left; reflexivity|right; exact (A2 x I)].
    + cbn [map]. constructor; [|exact A3]. intros I. apply in_map_iff in I. destruct I as (x & E & I). exact (Nn x I E).
    + intros x [<-|I]; [exact Sn|]. intros J. apply (A4 x I). right. exact J.
    + intros p o T Ne. rewrite !first_says_cons, (A5 p o T Ne). unfold nft_applies, term_gives. split.
      * intros [(X1 & X2)|(X1 & X2)]; [left; auto|right; split; [exact X1|]]. intros b (_ & Y1 & Y2). exact (X2 b (conj Y1 Y2)).
      * intros [(X0 & X1 & X2)|(X1 & X2)]; [left; auto|right; split; [exact X1|]]. intros b (Y1 & Y2). exact (X2 b (conj Fo (conj Y1 Y2))).
Qed.
