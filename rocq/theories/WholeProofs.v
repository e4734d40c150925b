(** Proofs for the way from the text to the configuration. *)
From Coq Require Import Lia ZifyBool.
From Verif Require Import SpecWhole BaseFacts CiscoProofs CiscoEst NamingProofs LoadProofs PropsParse PropsNft PropsIptables PropsPcap.
Local Open Scope string_scope.
Local Open Scope list_scope.
Local Open Scope Z_scope.

Lemma first_says_forall2 {A B} (R : A -> B -> Prop) (f : A -> string -> Prop) (g : B -> string -> Prop) la lb o :
  Forall2 R la lb -> (forall a b w, R a b -> (f a w <-> g b w)) -> (first_says f la o <-> first_says g lb o).
Proof.
  intros F K. split.
  - intros (b & x & a & -> & S & N). apply Forall2_app_inv_l in F. destruct F as (lb1 & lb2 & F1 & F2 & ->).
    inversion F2 as [|? y ? lb3 Rxy F3]; subst. exists lb1, y, lb3. split; [reflexivity|]. split; [apply (K _ _ _ Rxy); exact S|].
    intros z w I Sz. destruct (NamingProofs.Forall2_in_r _ _ _ _ F1 I) as (z' & Iz & Rz). apply (N z' w Iz). apply (K _ _ _ Rz); exact Sz.
  - intros (b & x & a & -> & S & N). apply Forall2_app_inv_r in F. destruct F as (la1 & la2 & F1 & F2 & ->).
    inversion F2 as [|y ? la3 ? Rxy F3]; subst. exists la1, y, la3. split; [reflexivity|]. split; [apply (K _ _ _ Rxy); exact S|].
    intros z w I Sz. destruct (NamingProofs.Forall2_in_l _ _ _ _ F1 I) as (z' & Iz & Rz). apply (N z' w Iz). apply (K _ _ _ Rz); exact Sz.
Qed.

Lemma assoc_filter {A} k (l : list (string * A)) :
  assoc k l = match filter (fun t => String.eqb (fst t) k) l with t :: _ => Some (snd t) | [] => None end.
Proof.
  induction l as [|(k', v) l IH]; [reflexivity|]. cbn [assoc filter fst]. rewrite String.eqb_sym. destruct (String.eqb k' k); [reflexivity|exact IH].
Qed.
Lemma str_in_assoc {A} k (l : list (string * A)) : str_in k (map fst l) = match assoc k l with Some _ => true | None => false end.
Proof.
  induction l as [|(k', v) l IH]; [reflexivity|]. cbn [assoc map fst]. unfold str_in, memb in *. cbn [existsb]. destruct (String.eqb k k'); [reflexivity|exact IH].
Qed.

Section Reads.
  Context (lookup : string -> res (list net)) (services : table).
  Definition reads (f : filter_text) (g : option header * list (term * extras)) : Prop :=
    header_reads (fst f) (fst g) /\ Forall2 (term_reads lookup services) (snd f) (snd g).
  Definition term_read (x : term_text) (t : term) : Prop := exists e, term_reads lookup services x (t, e).

  Lemma aimed_for platform : forall fs pol gs, Forall2 reads fs pol -> for_platform platform pol = Ok gs ->
    Forall2 (fun f g => fst f = fst (fst g) /\ Forall2 term_read (snd f) (snd g)) (aimed platform fs) gs.
  Proof.
    induction fs as [|f fs IH]; intros pol gs F E; inversion F as [|? g ? pol' (H & T) F']; subst.
    - apply ok_inj in E. subst gs. constructor.
    - destruct g as (oh, ts). cbn [for_platform fst snd] in *. destruct oh as [h|]; [|discriminate E].
      destruct (for_platform platform pol') as [r|] eqn:Er; [|discriminate E]. cbn [bind] in E. apply ok_inj in E. subst gs.
      specialize (IH pol' r F' Er). unfold aimed. cbn [flat_map]. fold (aimed platform fs).
      destruct H as (_ & Ht & _). unfold platforms, filter_options. rewrite str_in_assoc, assoc_filter, Ht.
      fold (options_for platform (fst f)). unfold options_for.
      destruct (filter _ (flat_map target_of (said "target" (fst f)))) as [|o os]; [exact IH|].
      cbn [app]. constructor; [|exact IH]. cbn [fst snd]. split; [reflexivity|].
      clear -T. induction T as [|x (t, e) xs ts R T IHT]; [constructor|]. cbn [map fst]. constructor; [exists e; exact R|exact IHT].
  Qed.

  Context (ty tm td today : Z).
  Hypothesis Today : date_ordinal ty tm td = Ok today.
  Lemma in_force_text x t : term_read x t -> (in_force today t <-> text_in_force (ty, tm, td) (snd x)).
  Proof.
    intros (e & (_ & _ & _ & _ & _ & _ & Ex & _)). cbn [fst] in Ex. split.
    - intros I y m d S C. apply C70_dates_exist in C. destruct C as (n & Hn). apply (C70_dates_ordered _ _ _ _ _ _ _ _ Today Hn).
      apply I. apply Ex. exists y, m, d. split; assumption.
    - intros I n Hn. apply Ex in Hn. destruct Hn as (y & m & d & S & O). apply (C70_dates_ordered _ _ _ _ _ _ _ _ Today O).
      apply I; [exact S|]. apply C70_dates_exist. exists n. exact O.
  Qed.
  Lemma matches_text x t p : names_nonempty lookup (snd x) -> term_read x t -> (term_matches t p <-> text_matches lookup services (snd x) p).
  Proof. intros N (e & (_ & _ & _ & _ & _ & _ & _ & M)). exact (M N p). Qed.
  Lemma action_text x t : term_read x t -> t_action t = words_said "action" (snd x).
  Proof. intros (e & (_ & _ & A & _)). exact A. Qed.

  (** a list of terms decides as its text *)
  Lemma decides_text (says : term -> string -> Prop) (verdict : list string -> string -> Prop) p xs ts o :
    (forall t w, says t w <-> in_force today t /\ term_matches t p /\ verdict (t_action t) w) ->
    Forall (fun x => names_nonempty lookup (snd x)) xs -> Forall2 term_read xs ts ->
    (first_says says ts o <-> first_says (text_says lookup services (ty, tm, td) verdict p) xs o).
  Proof.
    intros K N F. symmetry.
    assert (F2 : Forall2 (fun x t => names_nonempty lookup (snd x) /\ term_read x t) xs ts).
    { clear K. induction F; [constructor|]. inversion N; subst. constructor; [split; assumption|auto]. }
    apply (first_says_forall2 _ _ _ _ _ _ F2). intros x t w (Nx & R). rewrite K. unfold text_says.
    rewrite (in_force_text x t R), (matches_text x t p Nx R), (action_text x t R). reflexivity.
  Qed.
End Reads.

Lemma aimed_names lookup platform fs : text_names_nonempty lookup fs ->
  Forall (fun f => Forall (fun x => names_nonempty lookup (snd x)) (snd f)) (aimed platform fs).
Proof.
  intros N. apply Forall_forall. intros g I. unfold aimed in I. apply in_flat_map in I. destruct I as (f & If & Ig).
  destruct (options_for platform (fst f)); [|destruct Ig]. destruct Ig as [<-|[]]. exact (proj1 (Forall_forall _ _) N f If).
Qed.
Lemma nth_forall2 {A B} (R : A -> B -> Prop) la lb n a : Forall2 R la lb -> nth_error la n = Some a -> exists b, nth_error lb n = Some b /\ R a b.
Proof.
  intros F. revert n. induction F as [|x y la lb Rxy F IH]; intros n E; [destruct n; discriminate E|].
  destruct n as [|n]; [injection E as <-; exists y; split; [reflexivity|exact Rxy]|]. exact (IH n E).
Qed.


Lemma first_says_filter {A} (f : A -> bool) (says : A -> string -> Prop) l o :
  first_says says (filter f l) o <-> first_says (fun x w => f x = true /\ says x w) l o.
Proof.
  split.
  - induction l as [|x l IH]; cbn [filter]; [intros (b & y & a & E & _); destruct b; discriminate E|].
    destruct (f x) eqn:Fx.
    + intros (b & y & a & E & S & N). destruct b as [|z b]; cbn [app] in E; apply (f_equal (fun l => (hd_error l, tl l))) in E; apply pair_equal_spec in E; cbn in E; destruct E as (E1 & E2).
      * injection E1 as <-. exists [], x, l. split; [reflexivity|]. split; [split; assumption|]. intros ? ? [].
      * injection E1 as <-. destruct IH as (b' & y' & a' & -> & (Fy & S') & N').
        { exists b, y, a. split; [exact E2|]. split; [exact S|]. intros q w I. apply N. right. exact I. }
        exists (x :: b'), y', a'. split; [reflexivity|]. split; [split; assumption|].
        intros q w [<-|I] (Fq & Sq); [|apply (N' q w I); split; assumption]. apply (N x w); [left; reflexivity|exact Sq].
    + intros H. destruct (IH H) as (b & y & a & -> & S & N). exists (x :: b), y, a. split; [reflexivity|]. split; [exact S|].
      intros q w [<-|I] (Fq & Sq); [congruence|]. apply (N q w I). split; assumption.
  - intros (b & y & a & -> & (Fy & S) & N). exists (filter f b), y, (filter f a). split; [rewrite filter_app; cbn [filter]; rewrite Fy; reflexivity|].
    split; [exact S|]. intros q w I Sq. apply filter_In in I. destruct I as (I & Fq). apply (N q w I). split; assumption.
Qed.
Lemma valid_in_force today t : valid_on today t = true <-> in_force today t.
Proof.
  unfold valid_on, in_force. destruct (t_expiration t) as [d|]; [|split; [intros _ d E; discriminate E|reflexivity]].
  split; [intros H d' E; injection E as <-; lia|intros H; specialize (H d eq_refl); lia].
Qed.
Lemma forall2_app_at {A B} (R : A -> B -> Prop) l1 a l2 m : Forall2 R (l1 ++ a :: l2) m ->
  exists m1 b m2, m = m1 ++ b :: m2 /\ Forall2 R l1 m1 /\ R a b /\ Forall2 R l2 m2.
Proof.
  intros F. apply Forall2_app_inv_l in F. destruct F as (m1 & m' & F1 & F2 & ->). inversion F2 as [|? b ? m2 Rab F3]; subst.
  exists m1, b, m2. repeat split; assumption.
Qed.

Section Text.
  Context (lookup : string -> res (list net)) (services : table) (fs : list filter_text) (pol : policy) (ty tm td today : Z).
  Hypothesis Today : date_ordinal ty tm td = Ok today.
  Hypothesis Read : Forall2 (reads lookup services) fs pol.
  Hypothesis Names : text_names_nonempty lookup fs.

  Lemma nft_text gs lines : for_platform "nftables" pol = Ok gs -> nft_of today pol = Ok lines -> nft_policy_ok today (map nft_filter_of gs) ->
    exists cs, read_nft (join nl lines) = Some cs /\
      forall n options terms i p o, nth_error (aimed "nftables" fs) n = Some (options, terms) ->
        process_header options = Ok i -> nft_traffic (header_families i) p ->
        (nft_decides cs (header_table i, header_chain i n) p o <->
         (p_option p "established" /\ o = "accept") \/
         (~ p_option p "established" /\ first_says (text_says lookup services (ty, tm, td) nft_action p) terms o)).
  Proof.
    intros G H OK. unfold nft_of in H. rewrite G in H. cbn [bind] in H. destruct (checked _ _ _); [|discriminate H]. cbn [bind] in H.
    destruct (C35_ruleset_decides_as_policy_partial today _ lines H OK) as (cs & R & K). exists cs. split; [exact R|].
    intros n options terms i p o E I T.
    destruct (nth_forall2 _ _ _ _ _ (aimed_for lookup services "nftables" fs pol gs Read G) E) as (g & Eg & Ho & Ht). cbn [fst snd] in Ho, Ht.
    assert (En : nth_error (map nft_filter_of gs) n = Some (mkNftHeader options (snd (fst g)), snd g)) by (rewrite nth_error_map, Eg, Ho; reflexivity).
    rewrite (K n _ _ i p o En I T).
    assert (Nt : Forall (fun x => names_nonempty lookup (snd x)) terms).
    { pose proof (aimed_names lookup "nftables" fs Names) as A. rewrite Forall_forall in A. apply nth_error_In in E. exact (A _ E). }
    rewrite (decides_text lookup services ty tm td today Today (nft_applies today p) nft_action p terms (snd g) o); [reflexivity| |exact Nt|exact Ht].
    intros t w. reflexivity.
  Qed.

  Lemma pcap_text local invert shape gs text :
    for_platform "pcap" pol = Ok gs -> pcap_of invert today pol = Ok text ->
    (invert = false /\ shape = pcap_shape today \/ invert = true /\ shape = pcap_inverted_shape today) ->
    pcap_policy_ok shape today (map pcap_filter_of gs) ->
    exists c, read_pcap local text = Some c /\
      forall p, (forall f, In f (aimed "pcap" fs) -> pcap_traffic local (header_cfg (tl (fst f))) p) ->
        (c p <-> exists f, In f (aimed "pcap" fs) /\
           first_says (text_says lookup services (ty, tm, td) pcap_action p) (snd f) (if invert then "deny" else "accept")).
  Proof.
    intros G H Sh OK. unfold pcap_of in H. rewrite G in H. cbn [bind] in H. destruct (checked _ _ _); [|discriminate H]. cbn [bind] in H.
    assert (K : exists c, read_pcap local text = Some c /\
      forall p, (forall f, In f (map pcap_filter_of gs) -> pcap_traffic local (header_cfg (fst f)) p) ->
        (c p <-> exists f, In f (map pcap_filter_of gs) /\ pcap_decides today p (snd f) (if invert then "deny" else "accept"))).
    { destruct Sh as [(-> & ->)|(-> & ->)]; [exact (C36_filter_selects_accepted_partial local today _ text H OK)|exact (C36_inverted_selects_denied_partial local today _ text H OK)]. }
    destruct K as (c & R & K). exists c. split; [exact R|]. intros p T.
    pose proof (aimed_for lookup services "pcap" fs pol gs Read G) as F.
    pose proof (aimed_names lookup "pcap" fs Names) as A. rewrite Forall_forall in A.
    assert (D : forall f (g : list string * list term), In f (aimed "pcap" fs) -> Forall2 (term_read lookup services) (snd f) (snd g) ->
      forall o, pcap_decides today p (snd g) o <-> first_says (text_says lookup services (ty, tm, td) pcap_action p) (snd f) o).
    { intros f g If Ft o. unfold pcap_decides. rewrite first_says_filter.
      apply (decides_text lookup services ty tm td today Today _ pcap_action p); [|exact (A f If)|exact Ft].
      intros t w. rewrite valid_in_force. unfold pcap_says. reflexivity. }
    rewrite K.
    - split.
      + intros (q & I & S). apply in_map_iff in I. destruct I as (g & <- & Ig).
        destruct (NamingProofs.Forall2_in_r _ _ _ _ F Ig) as (f & If & _ & Ft). exists f. split; [exact If|].
        apply (D f (pcap_filter_of g) If Ft). exact S.
      + intros (f & If & S). destruct (NamingProofs.Forall2_in_l _ _ _ _ F If) as (g & Ig & _ & Ft).
        exists (pcap_filter_of g). split; [apply in_map; exact Ig|]. apply (D f (pcap_filter_of g) If Ft). exact S.
    - intros q I. apply in_map_iff in I. destruct I as (g & <- & Ig).
      destruct (NamingProofs.Forall2_in_r _ _ _ _ F Ig) as (f & If & Hf & _). cbn [pcap_filter_of fst]. rewrite <- Hf. apply T. exact If.
  Qed.

  Lemma ipt_text (speedway : bool) v gs hs lines :
    for_platform (if speedway then "speedway" else "iptables") pol = Ok gs -> mapM ipt_filter_of gs = Ok hs ->
    ipt_of speedway today pol = Ok lines -> ipt_policy_ok speedway today v hs ->
    exists cmds, read_table v (join nl_text lines) = Some cmds /\
      (loads builtin_chains cmds -> forall (before : list (list string * list term_text)) (name : string) (options : list string) (terms : list term_text) after p,
         aimed (if speedway then "speedway" else "iptables") fs = before ++ (name :: options, terms) :: after ->
         (forall f, In f (before ++ [(name :: options, terms)]) -> ~ In "nostate" (tl (fst f))) ->
         ipt_traffic (mkIpt speedway name (if str_in "inet6" options then V6 else V4) true true) p ->
         forall o, table_decides cmds name p o <->
           first_says (text_says lookup services (ty, tm, td) ipt_action p) terms o).
  Proof.
    intros G M H OK. unfold ipt_of in H. cbv zeta in H. rewrite G in H. cbn [bind] in H. destruct (checked _ _ _); [|discriminate H]. cbn [bind] in H.
    rewrite M in H. cbn [bind] in H. destruct (C31_table_decides_as_policy_partial speedway today v hs lines H OK) as (cmds & R & K).
    exists cmds. split; [exact R|]. intros Ld before name options terms after p E St T o.
    pose proof (aimed_for lookup services _ fs pol gs Read G) as F. rewrite E in F.
    destruct (forall2_app_at _ _ _ _ _ F) as (g1 & g & g2 & -> & F1 & (Ho & Ht) & _). cbn [fst snd] in Ho, Ht.
    assert (Q : exists h1 h2, hs = h1 ++ (mkIptHeader name options (snd (fst g)), snd g) :: h2 /\ Forall2 (fun f x => fst f = ih_name (fst x) :: ih_options (fst x)) before h1).
    { clear -M F1 Ho. revert before F1 hs M. induction g1 as [|x g1 IH]; intros before F1 hs M.
      - inversion F1; subst. cbn [app mapM] in M. unfold ipt_filter_of at 1 in M. rewrite <- Ho in M. cbn [bind] in M.
        destruct (mapM ipt_filter_of g2) as [h2|]; [|discriminate M]. cbn [bind] in M. apply ok_inj in M. subst hs. exists [], h2. split; [reflexivity|constructor].
      - inversion F1 as [|f ? b' ? (Hf & _) F1']; subst. cbn [app mapM] in M. unfold ipt_filter_of at 1 in M.
        destruct (fst (fst x)) as [|nm op] eqn:Ex; [discriminate M|]. cbn [bind] in M.
        destruct (mapM ipt_filter_of (g1 ++ g :: g2)) as [hs'|]; [|discriminate M]. cbn [bind] in M. apply ok_inj in M. subst hs.
        destruct (IH b' F1' hs' eq_refl) as (h1 & h2 & -> & Fh). exists ((mkIptHeader nm op (snd (fst x)), snd x) :: h1), h2.
        split; [reflexivity|]. constructor; [|exact Fh]. cbn [fst ih_name ih_options]. exact Hf. }
    destruct Q as (h1 & h2 & -> & Fh). set (h := mkIptHeader name options (snd (fst g))) in *.
    assert (Fa : filter_at (h1 ++ (h, snd g) :: h2) (map fst h1) h (snd g)) by (exists h1, h2; split; reflexivity).
    assert (Cs : ic_state (ipt_cfg_of speedway (map fst h1) h) = true).
    { cbn [ipt_cfg_of ic_state]. apply negb_true_iff. apply Bool.not_true_iff_false. intros X. apply existsb_exists in X. destruct X as (x & I & S).
      apply str_in_spec in S. apply in_app_or in I. destruct I as [I|[<-|[]]].
      - apply in_map_iff in I. destruct I as (y & <- & Iy). destruct (NamingProofs.Forall2_in_r _ _ _ _ Fh Iy) as (f & If & Hf).
        apply (St f); [apply in_or_app; left; exact If|]. rewrite Hf. exact S.
      - apply (St (name :: options, terms)); [apply in_or_app; right; left; reflexivity|]. exact S. }
    assert (Tr : ipt_traffic (ipt_cfg_of speedway (map fst h1) h) p).
    { unfold ipt_traffic in *. rewrite Cs. exact T. }
    change (table_decides cmds name p o) with (table_decides cmds (ih_name h) p o). rewrite (K Ld (map fst h1) h (snd g) p Fa Tr o).
    assert (Nt : Forall (fun x => names_nonempty lookup (snd x)) terms).
    { pose proof (aimed_names lookup (if speedway then "speedway" else "iptables") fs Names) as A. rewrite Forall_forall in A.
      apply (A (name :: options, terms)). rewrite E. apply in_or_app. right. left. reflexivity. }
    apply (decides_text lookup services ty tm td today Today _ ipt_action p); [|exact Nt|exact Ht].
    intros t w. unfold ipt_rule, ipt_matches. rewrite Cs. reflexivity.
  Qed.
End Text.

(** ** Texts for examples *)
Definition spaced (l : list (token * string)) : string := fold_right (fun x r => (" " ++ snd x ++ r)%string) "" l.
Lemma spaced_laid_out l : Forall (fun x => spelled (fst x) (snd x)) l -> laid_out (map fst l) (spaced l).
Proof.
  induction l as [|(t, w) l IH]; intros F; [apply lo_end, gap_nil|]. inversion F as [|? ? S F']; subst. cbn [map fst].
  change (spaced ((t, w) :: l)) with (" " ++ (w ++ spaced l))%string.
  apply lo_token; [apply gap_blank; [left; reflexivity|apply gap_nil]|exact S| |exact (IH F')].
  assert (N : forall f : ascii -> bool, f " "%char = false -> ~ starts f (spaced l)).
  { intros f E (c & r & Eq & Fc). destruct l as [|(t', w') l]; [discriminate Eq|]. change (spaced ((t', w') :: l)) with (String " " (w' ++ spaced l)) in Eq.
    injection Eq as <- _. congruence. }
  destruct t; cbn [may_follow]; try exact Logic.I; apply N; reflexivity.
Qed.
