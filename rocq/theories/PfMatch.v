(** Packet Filter: what the parts of a rule mean. *)
From Coq Require Import Lia ZifyBool ZifyNat.
From Verif Require Import SpecPf BaseFacts IPFacts PyStrFacts TextProofs PolicyProofs GenProofs GenProofs2 CiscoProofs CiscoProofs2 GceProofs SrxBook PfText PfRule.
From Verif Require ArubaProofs JuniperTerm IpParentProofs.
Local Open Scope string_scope.
Local Open Scope list_scope.
Local Open Scope Z_scope.

Lemma says_some l P : some_says (Some l) P <-> exists w, In w l /\ P w.
Proof. split; [intros H; exact (H l eq_refl)|]. intros H m E. assert (m = l) by congruence. subst m. exact H. Qed.
Lemma none_says P : some_says None P.
Proof. intros l E. discriminate E. Qed.

(** ** Ports *)
Lemma numeral_free c s n : is_digit c = false -> numeral_value s = Some n -> has_char c s = false.
Proof.
  intros D H. unfold numeral_value in H. destruct s as [|x s]; [discriminate H|]. revert H. generalize (String x s) 0. clear x s.
  intros s. induction s as [|x s IH]; intros a H; [reflexivity|]. cbn [digits_value] in H. destruct (digit_value x) as [d|] eqn:E; [|discriminate H].
  cbn [has_char]. rewrite (IH _ H), orb_false_r. destruct (Ascii.eqb x c) eqn:X; [|reflexivity]. apply Ascii.eqb_eq in X. subst x.
  exfalso. revert D E. clear. destruct c as [b0 b1 b2 b3 b4 b5 b6 b7]. destruct b0, b1, b2, b3, b4, b5, b6, b7; vm_compute; congruence.
Qed.
Lemma cut_colon a b x y : has_char ":" a = false -> has_char ":" x = false -> (a ++ ":" ++ b)%string = (x ++ ":" ++ y)%string -> a = x /\ b = y.
Proof.
  intros A X E. assert (F : before_char ":" (a ++ ":" ++ b)%string = before_char ":" (x ++ ":" ++ y)%string) by (rewrite E; reflexivity).
  rewrite (before_char_app ":" _ _ A), (before_char_app ":" _ _ X) in F. cbn [append before_char] in F. change (Ascii.eqb ":" ":") with true in F. cbv iota in F.
  rewrite !str_app_nil in F. subst x. split; [reflexivity|].
  assert (G : after_char ":" (a ++ ":" ++ b)%string = after_char ":" (a ++ ":" ++ y)%string) by (rewrite E; reflexivity).
  rewrite !(after_char_app ":" _ _ A) in G. exact G.
Qed.
Lemma port_means r x : port_range r -> port_says x (pf_port r) <-> SpecPorts.in_range r x.
Proof.
  intros (A & B). unfold port_says, pf_port, SpecPorts.in_range. pose proof (dec_value _ A) as Va. pose proof (dec_value _ B) as Vb.
  assert (C1 : has_char ":" (dec (fst r)) = false) by exact (numeral_free ":" _ _ eq_refl Va).
  destruct (fst r =? snd r) eqn:E.
  - apply Z.eqb_eq in E. rewrite Va. split.
    + intros [H|(a & b & lo & hi & H & _)]; [injection H as H; lia|]. rewrite H, has_char_app in C1. cbn in C1. rewrite orb_true_r in C1. discriminate C1.
    + intros H. left. f_equal. lia.
  - split.
    + intros [H|(a & b & lo & hi & H & Ha & Hb & L)].
      * apply (numeral_free ":") in H; [|reflexivity]. rewrite has_char_app in H. cbn in H. rewrite orb_true_r in H. discriminate H.
      * pose proof (numeral_free ":" _ _ eq_refl Ha) as N. apply cut_colon in H; [|assumption..]. destruct H as (<- & <-).
        assert (lo = fst r) by congruence. assert (hi = snd r) by congruence. lia.
    + intros H. right. exists (dec (fst r)), (dec (snd r)), (fst r), (snd r). auto.
Qed.
Lemma ports_mean l x : (forall r, In r l -> port_range r) -> some_says (opt_if (some l) (first_seen [] (map pf_port l))) (port_says x) <-> ports_match l x.
Proof.
  intros H. unfold opt_if, ports_match, in_ports. destruct (some l) eqn:So.
  2: { destruct l; [|discriminate So]. split; [left; reflexivity|intros _; apply none_says]. }
  assert (N : l <> []) by (intros ->; discriminate So). clear So. rewrite says_some. split.
  - intros (w & I & P). right. apply first_seen_nil, in_map_iff in I. destruct I as (r & <- & I). exists r. split; [exact I|]. apply port_means; [apply H, I|exact P].
  - intros [E|(r & I & P)]; [contradiction|]. exists (pf_port r). split; [apply first_seen_nil, in_map, I|]. apply port_means; [apply H, I|exact P].
Qed.

(** ** Protocols *)
Definition pfp (s : string) : string := if String.eqb s "icmpv6" then "ipv6-icmp" else s.
Definition pf_known6 : list string := "icmpv6" :: pf_known.
Lemma known_in q : q = "icmpv6" \/ In q pf_known -> In q pf_known6.
Proof. intros [->|I]; [left; reflexivity|right; exact I]. Qed.
Lemma known_facts q : In q pf_known6 -> In q (map fst proto_map) /\ String.eqb q "ipip" = false /\ String.eqb q "hopopt" = false /\ pf_word (pfp q).
Proof.
  intros I. assert (F : forallb (fun q => str_in q (map fst proto_map) && negb (String.eqb q "ipip") && negb (String.eqb q "hopopt") && (negb (is_empty (pfp q)) && forall_char pf_char (pfp q))) pf_known6 = true) by reflexivity.
  rewrite forallb_forall in F. specialize (F q I). apply andb_true_iff in F. destruct F as (F & F4). apply andb_true_iff in F. destruct F as (F & F3). apply andb_true_iff in F. destruct F as (F1 & F2).
  split; [apply str_in_spec, F1|]. split; [apply negb_true_iff, F2|]. split; [apply negb_true_iff, F3|]. apply lit, F4.
Qed.
Lemma proto_vals l pv : term_protocols ["ipip"] l = Ok pv -> (forall q, In q l -> In q pf_known6) ->
  pv = map PName l /\ map pval_text pv = l /\ pf_protocols_line pv = Ok ("proto { " ++ join " " (map pfp l) ++ " }")%string.
Proof.
  intros E H. apply ArubaProofs.term_protocols_named in E; [|intros q I; apply (known_facts q (H q I))].
  assert (P : pv = map PName l).
  { rewrite E. apply map_ext_in. intros q I. destruct (known_facts q (H q I)) as (_ & X & _). rewrite X. reflexivity. }
  split; [exact P|]. rewrite P. clear E P. split; [rewrite map_map; apply map_id|].
  unfold pf_protocols_line. assert (N : existsb (pval_is "hopopt") (map PName l) = false).
  { destruct (existsb (pval_is "hopopt") (map PName l)) eqn:X; [|reflexivity]. apply existsb_exists in X. destruct X as (v & I & X). apply in_map_iff in I. destruct I as (q & <- & I).
    destruct (known_facts q (H q I)) as (_ & _ & Y & _). unfold pval_is in X. cbn [pval_text] in X. congruence. }
  rewrite N. clear N.
  assert (M : mapM (fun q => match q with PName s => Ok (if String.eqb s "icmpv6" then "ipv6-icmp" else s) | PNum _ => Raise (Exn "TypeError") end) (map PName l) = Ok (map pfp l)).
  { clear H. induction l as [|q l IH]; [reflexivity|]. cbn [map mapM]. rewrite IH. reflexivity. }
  rewrite M. reflexivity.
Qed.
Lemma proto_seg l : (forall q, In q l -> In q pf_known6) -> seg ("proto { " ++ join " " (map pfp l) ++ " }")%string ("proto" :: "{" :: map pfp l ++ ["}"]) /\ ~ In "}" (map pfp l).
Proof.
  intros H. assert (P : forall w, In w (map pfp l) -> pf_word w) by (intros w I; apply in_map_iff in I; destruct I as (q & <- & I); apply (known_facts q (H q I))). split.
  - change ("proto { " ++ join " " (map pfp l) ++ " }")%string with ("proto" ++ " " ++ ("{ " ++ join " " (map pfp l) ++ " }"))%string.
    apply seg_key; [apply lit; reflexivity|]. apply seg_braces, seg_words, P.
  - intros I. exact (pf_not_brace _ (P _ I) eq_refl).
Qed.
Lemma protos_mean l p : (forall q, In q l -> In q pf_known6) -> some_says (opt_if (some l) (map pfp l)) (proto_says p) <-> any_or l (eq (p_proto p)).
Proof.
  intros H. unfold opt_if, any_or. destruct (some l) eqn:So.
  2: { destruct l; [|discriminate So]. split; [left; reflexivity|intros _; apply none_says]. }
  assert (N : l <> []) by (intros ->; discriminate So). clear So.
  assert (Q : forall q, In q l -> proto_says p (pfp q) <-> p_proto p = q).
  { intros q I. specialize (H q I). unfold proto_says, pfp. destruct (String.eqb q "icmpv6") eqn:E.
    - apply String.eqb_eq in E. subst q. split; [intros [(X & _)|(_ & X)]; [exfalso; apply str_in_spec in X; discriminate X|exact X]|intros X; right; auto].
    - destruct H as [<-|H]; [discriminate E|]. split; [intros [(_ & X)|(X & _)]; [exact X|subst q; exfalso; apply str_in_spec in H; discriminate H]|intros X; left; auto]. }
  rewrite says_some. split.
  - intros (w & I & P). right. apply in_map_iff in I. destruct I as (q & <- & I). exists q. split; [exact I|]. apply Q; assumption.
  - intros [E|(q & I & P)]; [contradiction|]. exists (pfp q). split; [apply in_map, I|]. apply Q; assumption.
Qed.

(** ** ICMP types *)
Lemma types_nonneg t ps types : pf_types t ps = Ok types -> forall l n, types = Some l -> In n l -> 0 <= n.
Proof.
  unfold pf_types. destruct (t_icmp_type t) as [|x0 xs] eqn:Et; cbn [some]; [intros E; injection E as <-; discriminate|]. rewrite <- Et in *.
  assert (N : t_icmp_type t <> []) by congruence. clear Et. intros H l n -> I.
  destruct (list_str_eqb ps ["icmp"]) eqn:E4; [|destruct (list_str_eqb ps ["icmpv6"]) eqn:E6; [|discriminate H]].
  - destruct (JuniperTerm.icmp_types_spec _ _ _ V4 _ (mkPacket (V4, 0) (V4, 0) "" 0 0 "" 0 (fun _ => False) (fun _ => False) (fun _ => False) (fun _ => False) (fun _ => False) "" "" 0 0 0 0 "" "" "" "" "" "" "" "" "") N (or_introl (conj eq_refl eq_refl)) H) as (l' & E & _ & P & _).
    injection E as <-. apply P, I.
  - destruct (JuniperTerm.icmp_types_spec _ _ _ V6 _ (mkPacket (V4, 0) (V4, 0) "" 0 0 "" 0 (fun _ => False) (fun _ => False) (fun _ => False) (fun _ => False) (fun _ => False) "" "" 0 0 0 0 "" "" "" "" "" "" "" "" "") N (or_intror (conj eq_refl eq_refl)) H) as (l' & E & _ & P & _).
    injection E as <-. apply P, I.
Qed.
Lemma type_list_mean v l p : l <> [] -> (forall n, In n l -> 0 <= n) -> some_says (Some (map dec l)) (type_in (icmp_types_of v) p) <-> exists n, In n l /\ In (p_icmp_type p, n) (icmp_types_of v).
Proof.
  intros N H. unfold some_says, type_in. split.
  - intros S. destruct (S _ eq_refl) as (w & I & n & E & J). apply in_map_iff in I. destruct I as (k & <- & I). rewrite dec_value in E by (apply H, I). injection E as <-. exists k. auto.
  - intros (n & I & J) m E. injection E as <-. exists (dec n). split; [apply in_map, I|]. exists n. split; [apply dec_value, H, I|exact J].
Qed.
Lemma types_mean t ps types p : pf_types t ps = Ok types ->
  some_says (types_of "icmp" ps types) (type_in icmp_type4 p) /\ some_says (types_of "icmpv6" ps types) (type_in icmp_type6 p) <-> any_or (t_icmp_type t) (eq (p_icmp_type p)).
Proof.
  unfold pf_types. destruct (t_icmp_type t) as [|x0 xs] eqn:Et; cbn [some].
  { intros E. injection E as <-. unfold types_of. split; [left; reflexivity|]. intros _. split; apply none_says. }
  rewrite <- Et in *. assert (N : t_icmp_type t <> []) by congruence. clear Et. intros H.
  destruct (list_str_eqb ps ["icmp"]) eqn:E4; [|destruct (list_str_eqb ps ["icmpv6"]) eqn:E6; [|discriminate H]].
  - apply list_str_eqb_iff in E4. subst ps.
    destruct (JuniperTerm.icmp_types_spec _ _ _ V4 _ p N (or_introl (conj eq_refl eq_refl)) H) as (l & -> & Nl & P & <-).
    unfold types_of. change (str_in "icmp" ["icmp"]) with true. change (str_in "icmpv6" ["icmp"]) with false. cbn [andb opt_if].
    assert (S : some l = true) by (destruct l; [congruence|reflexivity]). rewrite S. unfold opt_if. rewrite <- (type_list_mean V4 l p Nl P).
    split; [intros (X & _); exact X|intros X; split; [exact X|apply none_says]].
  - apply list_str_eqb_iff in E6. subst ps.
    destruct (JuniperTerm.icmp_types_spec _ _ _ V6 _ p N (or_intror (conj eq_refl eq_refl)) H) as (l & -> & Nl & P & <-).
    unfold types_of. change (str_in "icmpv6" ["icmpv6"]) with true. change (str_in "icmp" ["icmpv6"]) with false. cbn [andb opt_if].
    assert (S : some l = true) by (destruct l; [congruence|reflexivity]). rewrite S. unfold opt_if. rewrite <- (type_list_mean V6 l p Nl P).
    split; [intros (_ & X); exact X|intros X; split; [apply none_says|exact X]].
Qed.
