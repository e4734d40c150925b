(** Proofs about Cisco access-list lines. *)
From Coq Require Import Lia ZifyBool ZifyNat.
From Verif Require Import SpecCisco SpecSum IPFacts BaseFacts PyStrFacts SumProofs TextProofs ExcludeProofs PortProofs GenProofs GenProofs2.
Local Open Scope string_scope.
Local Open Scope list_scope.
Local Open Scope Z_scope.

(** ** Words *)
Lemma ok_inj {A} (a b : A) : Ok a = Ok b -> a = b.
Proof. congruence. Qed.
Lemma split_ws_aux_space a : forall cur b,
  split_ws_aux (append a (String " " b)) cur = split_ws_aux a cur ++ split_ws b.
Proof.
  induction a as [|c a IH]; intros cur b.
  - cbn [append split_ws_aux]. change (is_ws " ") with true. cbv iota. destruct (is_empty cur); reflexivity.
  - cbn [append split_ws_aux]. destruct (is_ws c); [destruct (is_empty cur)|]; rewrite IH; reflexivity.
Qed.
Lemma split_ws_space a b : split_ws (append a (append " " b)) = split_ws a ++ split_ws b.
Proof. apply split_ws_aux_space. Qed.
Lemma split_ws_join l : split_ws (join " " l) = concat (map split_ws l).
Proof.
  induction l as [|x l IH]; [reflexivity|]. destruct l as [|y l].
  - cbn [join map concat]. rewrite app_nil_r. reflexivity.
  - rewrite join_cons2, split_ws_space, IH. reflexivity.
Qed.
Lemma split_ws_filter l : concat (map split_ws (filter (fun x => negb (is_empty x)) l)) = concat (map split_ws l).
Proof.
  induction l as [|x l IH]; [reflexivity|]. cbn [filter map concat]. destruct x as [|c x]; cbn [is_empty negb].
  - exact IH.
  - cbn [map concat]. rewrite IH. reflexivity.
Qed.
Lemma termlet_words action proto sa sp da dp ty co o :
  split_ws (termlet action proto sa sp da dp ty co o) =
  split_ws action ++ split_ws proto ++ split_ws sa ++ split_ws sp ++ split_ws da ++ split_ws dp ++
  split_ws (opt_dec ty) ++ split_ws (opt_dec co) ++ concat (map split_ws o).
Proof.
  unfold termlet. change (append " " ?x) with (String " " x). rewrite split_ws_lead, split_ws_join, split_ws_filter.
  cbn [map concat]. rewrite split_ws_join, app_nil_r. reflexivity.
Qed.
Lemma split_ws_dec n : 0 <= n -> split_ws (dec n) = [dec n].
Proof. intros H. apply split_ws_word; [apply dec_no_ws, H|apply dec_nonempty]. Qed.
Lemma split_ws_addr v a : 0 <= a < 2 ^ width v -> split_ws (addr_text v a) = [addr_text v a].
Proof. intros H. apply split_ws_word; [apply addr_text_no_ws|apply addr_text_nonempty, H]. Qed.

(** ** Reading the columns back *)
(** A word that starts neither a port condition nor is a number nor an address keyword *)
Definition addr_word (s : string) : Prop := s <> "any" /\ s <> "host" /\ s <> "eq" /\ s <> "range".
Lemma value_addr_word v s a : ip_value v s = Some a -> addr_word s.
Proof.
  intros H. unfold addr_word. repeat split; intros ->; destruct v; vm_compute in H; discriminate H.
Qed.
Lemma prefix_addr_word n : addr_word (prefixlen_text n).
Proof.
  assert (S : has_char "/" (prefixlen_text n) = true).
  { unfold prefixlen_text. rewrite !has_char_app. cbn [has_char]. rewrite orb_true_r. reflexivity. }
  unfold addr_word. repeat split; intros E; rewrite E in S; discriminate S.
Qed.
Definition caddr_ok (v : ver) (a : caddr) : Prop :=
  match a with
  | AAny => True
  | ANet n => valid n /\ nver n = v
  | ADsm d => v = V4 /\ 0 <= daddr d /\ 0 <= dmask d
  end.
Definition caddr_covers (v : ver) (a : caddr) (x : Z) : Prop :=
  match a with AAny => True | ANet n => covers n (v, x) | ADsm d => dsm_match d x end.
Definition starts_address (v : ver) (ws : list string) : Prop :=
  exists w r, ws = w :: r /\ w <> "eq" /\ w <> "range".
Lemma eqb_neq' a b : a <> b -> String.eqb a b = false.
Proof. intros H. apply String.eqb_neq, H. Qed.
Lemma read_address_text v a s r : caddr_ok v a -> get_ip_string a = Ok s ->
  starts_address v (split_ws s ++ r) /\
  exists P, read_address v (split_ws s ++ r) = Some (P, r) /\
    forall x, 0 <= x < 2 ^ width v -> (P x <-> caddr_covers v a x).
Proof.
  intros K H. destruct a as [|n|d]; cbn [get_ip_string caddr_ok] in *.
  - injection H as <-. change (split_ws "any") with ["any"]. cbn [app]. split.
    + exists "any", r. split; [reflexivity|]. split; discriminate.
    + exists (fun _ => True). split; [reflexivity|]. intros x _. reflexivity.
  - destruct K as (V & Hv). pose proof V as (Hl & Ha & Hd). apply ok_inj in H. subst s.
    destruct (nlen n =? width (nver n)) eqn:E.
    + rewrite (split_ws_space "host" (addr_text (nver n) (naddr n)) : split_ws (append "host " _) = _).
      rewrite split_ws_addr by exact Ha. change (split_ws "host") with ["host"]. cbn [app]. split.
      * exists "host", (addr_text (nver n) (naddr n) :: r). split; [reflexivity|]. split; discriminate.
      * eexists. split.
        { unfold read_address. change (String.eqb "host" "any") with false. change (String.eqb "host" "host") with true.
          cbv iota. destruct v; reflexivity. }
        intros x Hx. cbn [caddr_covers]. rewrite Hv in *. rewrite addr_text_value by exact Ha.
        unfold covers, size. cbn [fst snd]. rewrite Hv. replace (width v - nlen n) with 0 by lia.
        split; [intros X; injection X as <-; split; [reflexivity|lia]|]. intros (_ & X). f_equal. lia.
    + rewrite Hv in *. destruct v.
      * assert (Hm : 0 <= hostmask n < 2 ^ width V4).
        { rewrite hostmask_eq by (rewrite Hv; exact Hl). unfold size. rewrite Hv.
          assert (0 < 2 ^ (width V4 - nlen n)) by (apply Z.pow_pos_nonneg; lia).
          assert (2 ^ (width V4 - nlen n) <= 2 ^ width V4) by (apply Z.pow_le_mono_r; lia). lia. }
        rewrite split_ws_space, !split_ws_addr by assumption. cbn [app].
        pose proof (value_addr_word V4 _ _ (addr_text_value V4 _ Ha)) as (W1 & W2 & W3 & W4). split.
        { exists (addr_text V4 (naddr n)), (addr_text V4 (hostmask n) :: r). auto. }
        eexists. split.
        { unfold read_address. rewrite (eqb_neq' _ _ W1), (eqb_neq' _ _ W2). reflexivity. }
        intros x Hx. apply wildcard_net; assumption.
      * assert (N : no_ws (prefixlen_text n)).
        { unfold no_ws, prefixlen_text. rewrite !forall_char_app. rewrite (addr_text_no_ws (nver n) (naddr n)).
          rewrite (dec_no_ws (nlen n)) by lia. reflexivity. }
        assert (Ne : prefixlen_text n <> "").
        { unfold prefixlen_text. destruct (addr_text (nver n) (naddr n)); discriminate. }
        rewrite (split_ws_word _ N Ne). cbn [app]. pose proof (prefix_addr_word n) as (W1 & W2 & W3 & W4). split.
        { exists (prefixlen_text n), r. auto. }
        eexists. split.
        { unfold read_address. rewrite (eqb_neq' _ _ W1). destruct r as [|b r']; [reflexivity|].
          rewrite (eqb_neq' _ _ W2). reflexivity. }
        intros x Hx. cbn [caddr_covers]. rewrite <- Hv. apply prefix_text_says; [exact V|]. rewrite Hv. exact Hx.
  - destruct K as (-> & Ha & Hm). destruct (to_dotted_quad d true false) as [[q w]|e] eqn:E; [|discriminate H].
    apply ok_inj in H. subst s. destruct (to_dotted_quad_spec d true Ha Hm) as (P & Q). destruct (P q w E) as (D1 & D2).
    assert (T : q = addr_text V4 (daddr d) /\ exists m, w = addr_text V4 m).
    { unfold to_dotted_quad in E. destruct (32 <? _); [discriminate E|]. destruct (negb _); [discriminate E|].
      apply ok_inj in E. apply pair_equal_spec in E. destruct E as (<- & <-). split; [reflexivity|]. eexists. reflexivity. }
    destruct T as (-> & m & ->).
    apply denotes_quad_value in D1. apply denotes_quad_value in D2.
    assert (N1 : addr_text V4 (daddr d) <> "") by (intros X; rewrite X in D1; discriminate D1).
    assert (N2 : addr_text V4 m <> "") by (intros X; rewrite X in D2; discriminate D2).
    rewrite split_ws_space, !split_ws_word by (assumption || apply addr_text_no_ws). cbn [app].
    pose proof (value_addr_word V4 _ _ D1) as (W1 & W2 & W3 & W4). split.
    { exists (addr_text V4 (daddr d)), (addr_text V4 m :: r). auto. }
    eexists. split.
    { unfold read_address. rewrite (eqb_neq' _ _ W1), (eqb_neq' _ _ W2). reflexivity. }
    intros x Hx. cbn [caddr_covers]. apply wildcard_pair; assumption.
Qed.

Definition no_port_word (ws : list string) : Prop :=
  match ws with [] => True | w :: _ => w <> "eq" /\ w <> "range" end.
Definition oport_ok (o : option prange) : Prop := match o with Some r => 0 <= fst r /\ 0 <= snd r | None => True end.
Definition oport_covers (o : option prange) (x : Z) : Prop := match o with Some r => SpecPorts.in_range r x | None => True end.
Lemma read_port_text o r : oport_ok o -> no_port_word r ->
  exists P, read_port (split_ws (format_port o) ++ r) = (P, r) /\ forall x, P x <-> oport_covers o x.
Proof.
  intros K N. destruct o as [[lo hi]|]; cbn [format_port oport_ok oport_covers fst snd] in *.
  - destruct (lo =? hi) eqn:E.
    + rewrite (split_ws_space "eq" (dec lo) : split_ws (append "eq " _) = _). rewrite split_ws_dec by lia.
      change (split_ws "eq") with ["eq"]. cbn [app]. eexists. split; [reflexivity|].
      intros x. cbn beta. rewrite dec_value by lia. unfold SpecPorts.in_range. cbn [fst snd]. split; [intros X; injection X as <-; lia|].
      intros X. f_equal. lia.
    + rewrite (split_ws_space "range" (append (dec lo) (append " " (dec hi))) : split_ws (append "range " _) = _).
      rewrite split_ws_space, !split_ws_dec by lia.
      change (split_ws "range") with ["range"]. cbn [app]. eexists. split; [reflexivity|].
      intros x. cbn beta. unfold SpecPorts.in_range. cbn [fst snd]. split.
      * intros (a & b & A & B & C). rewrite dec_value in A, B by lia. injection A as <-. injection B as <-. exact C.
      * intros C. exists lo, hi. rewrite !dec_value by lia. auto.
  - change (split_ws "") with (@nil string). cbn [app]. exists (fun _ => True). split; [|reflexivity].
    unfold read_port. destruct r as [|w [|a r]]; try reflexivity. destruct N as (N1 & N2).
    rewrite (eqb_neq' _ _ N1), (eqb_neq' _ _ N2). destruct r; reflexivity.
Qed.

Definition no_number (ws : list string) : Prop := match ws with [] => True | w :: _ => numeral_value w = None end.
Lemma read_number_text o r : (forall n, o = Some n -> 0 <= n) -> (o = None -> no_number r) ->
  read_number (split_ws (opt_dec o) ++ r) = (o, r).
Proof.
  intros K N. destruct o as [n|]; cbn [opt_dec].
  - rewrite split_ws_dec by auto. cbn [app read_number]. rewrite dec_value by auto. reflexivity.
  - change (split_ws "") with (@nil string). cbn [app]. specialize (N eq_refl). unfold read_number.
    destruct r as [|w r]; [reflexivity|]. cbn [no_number] in N. rewrite N. reflexivity.
Qed.

(** ** One line *)
(** The option texts the generator makes *)
Definition opt_text (o : string) : Prop :=
  o = "established" \/ o = "fragments" \/ o = "log" \/ exists d, o = append "dscp " d /\ split_ws d = [d].
Definition opt_says (o : string) (p : packet) : Prop :=
  (o = "established" -> p_option p "established") /\ (o = "fragments" -> p_option p "fragments") /\
  (forall d, o = append "dscp " d -> p_dscp p = d).
Lemma options_say_text l p : Forall opt_text l ->
  options_say (concat (map split_ws l)) p <-> forall o, In o l -> opt_says o p.
Proof.
  induction l as [|o l IH]; intros H; [split; [intros _ o []|intros; exact I]|].
  inversion H as [|? ? Ho Hl]; subst. specialize (IH Hl). cbn [map concat].
  assert (E : options_say (split_ws o ++ concat (map split_ws l)) p <-> opt_says o p /\ options_say (concat (map split_ws l)) p).
  { destruct Ho as [->|[->|[->|(d & -> & Hd)]]].
    - change (split_ws "established") with ["established"]. cbn [app options_say]. change (String.eqb "established" "established") with true.
      cbv iota. unfold opt_says. split; intros (A & B); split; auto; [|apply A; reflexivity].
      split; [auto|]. split; [discriminate|]. intros d X; discriminate X.
    - change (split_ws "fragments") with ["fragments"]. cbn [app options_say]. change (String.eqb "fragments" "established") with false.
      change (String.eqb "fragments" "fragments") with true.
      cbv iota. unfold opt_says. split; intros (A & B); split; auto; [|apply A; reflexivity].
      split; [discriminate|]. split; [auto|]. intros d X; discriminate X.
    - change (split_ws "log") with ["log"]. cbn [app options_say]. change (String.eqb "log" "established") with false.
      change (String.eqb "log" "fragments") with false. change (String.eqb "log" "log") with true.
      cbv iota. unfold opt_says. split; [|tauto]. intros A. split; [|exact A].
      split; [discriminate|]. split; [discriminate|]. intros d X; discriminate X.
    - rewrite (split_ws_space "dscp" d : split_ws (append "dscp " d) = _). rewrite Hd.
      change (split_ws "dscp") with ["dscp"]. cbn [app options_say]. change (String.eqb "dscp" "established") with false.
      change (String.eqb "dscp" "fragments") with false. change (String.eqb "dscp" "log") with false.
      change (String.eqb "dscp" "dscp") with true. cbv iota. unfold opt_says. split; intros (A & B); split; auto.
      + split; [discriminate|]. split; [discriminate|]. intros d' X. injection X as <-. exact A.
      + apply A. reflexivity. }
  rewrite E, IH. split.
  - intros (A & B) x [<-|X]; auto.
  - intros A. split; [apply A; left; reflexivity|]. intros x X. apply A. right. exact X.
Qed.
Lemma options_no_number l : Forall opt_text l -> no_number (concat (map split_ws l)) /\ no_port_word (concat (map split_ws l)).
Proof.
  intros H. destruct l as [|o l]; [split; exact I|]. inversion H as [|? ? Ho Hl]; subst. cbn [map concat].
  destruct Ho as [->|[->|[->|(d & -> & Hd)]]].
  - split; [reflexivity|]. split; discriminate.
  - split; [reflexivity|]. split; discriminate.
  - split; [reflexivity|]. split; discriminate.
  - rewrite (split_ws_space "dscp" d : split_ws (append "dscp " d) = _). split; [reflexivity|]. split; discriminate.
Qed.

Record ace_ok (v : ver) (action proto : string) (sa da : caddr) (sas das : string) (sp dp : option prange)
  (ty co : option Z) (opts : list string) : Prop := {
  ao_action : In action ["permit"; "deny"]; ao_proto : split_ws proto = [proto];
  ao_sa : caddr_ok v sa /\ get_ip_string sa = Ok sas; ao_da : caddr_ok v da /\ get_ip_string da = Ok das;
  ao_sp : oport_ok sp; ao_dp : oport_ok dp;
  ao_ty : forall n, ty = Some n -> 0 <= n; ao_co : forall n, co = Some n -> 0 <= n; ao_tc : ty = None -> co = None;
  ao_opts : Forall opt_text opts }.
Lemma dec_no_port n : 0 <= n -> dec n <> "eq" /\ dec n <> "range".
Proof. intros H. pose proof (dec_value n H) as D. split; intros X; rewrite X in D; discriminate D. Qed.
Lemma ace_line v action proto sa da sas das sp dp ty co opts p :
  ace_ok v action proto sa da sas das sp dp ty co opts ->
  0 <= snd (p_src p) < 2 ^ width v -> 0 <= snd (p_dst p) < 2 ^ width v ->
  forall act, line_matches v act (termlet action proto sas (format_port sp) das (format_port dp) ty co opts) p <->
  act = action /\ protocol_says v proto p /\ caddr_covers v sa (snd (p_src p)) /\ oport_covers sp (p_sport p) /\
  caddr_covers v da (snd (p_dst p)) /\ oport_covers dp (p_dport p) /\ type_says v ty p /\ code_says co p /\
  forall o, In o opts -> opt_says o p.
Proof.
  intros A Hs Hd act. destruct A as [Aa Ap (As1 & As2) (Ad1 & Ad2) Asp Adp Aty Aco Atc Ao].
  unfold line_matches. rewrite termlet_words.
  assert (Ea : split_ws action = [action]) by (destruct Aa as [<-|[<-|[]]]; reflexivity). rewrite Ea, Ap. cbn [app].
  set (w4 := concat (map split_ws opts)). destruct (options_no_number opts Ao) as (N4 & P4). fold w4 in N4, P4.
  set (w3 := split_ws (opt_dec co) ++ w4). set (w2 := split_ws (opt_dec ty) ++ w3).
  assert (R3 : read_number w3 = (co, w4)) by (apply read_number_text; auto).
  assert (R2 : read_number w2 = (ty, w3)).
  { apply read_number_text; [assumption|]. intros X. unfold w3. rewrite (Atc X). exact N4. }
  assert (P2 : no_port_word w2).
  { unfold w2, w3. destruct ty as [n|].
    - cbn [opt_dec]. rewrite split_ws_dec by auto. apply dec_no_port. auto.
    - rewrite (Atc eq_refl). exact P4. }
  destruct (read_port_text dp w2 Adp P2) as (Pd & Rd & Md).
  destruct (read_address_text v da das (split_ws (format_port dp) ++ w2) Ad1 Ad2) as (Sd & Qd & Rda & Mda).
  assert (P1 : no_port_word (split_ws das ++ split_ws (format_port dp) ++ w2)).
  { destruct Sd as (w & r & -> & W). exact W. }
  destruct (read_port_text sp _ Asp P1) as (Ps & Rs & Ms).
  destruct (read_address_text v sa sas (split_ws (format_port sp) ++ split_ws das ++ split_ws (format_port dp) ++ w2) As1 As2)
    as (_ & Qs & Rsa & Msa).
  unfold conditions_match. rewrite Rsa, Rs, Rda, Rd, R2, R3. fold w4.
  rewrite (options_say_text opts p Ao : options_say w4 p <-> _).
  rewrite (Msa _ Hs), (Mda _ Hd), (Ms _), (Md _). 
  split; [intros (-> & _ & X); split; [reflexivity|exact X]|].
  intros (-> & X). split; [reflexivity|]. split; [exact Aa|exact X].
Qed.
