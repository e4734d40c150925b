(** GetIpParents and GetPortParents. *)
From Coq Require Import Lia Sorted Relations Permutation.
From Verif Require Import BaseFacts PyStrFacts IPFacts SpecNaming ModelParents SpecParents NamingProofs ServiceProofs PortNameProofs.
Local Open Scope string_scope.

Lemma alpha_first_spec s : alpha_first s = true <-> alpha_name s.
Proof.
  unfold alpha_name. destruct s as [|c s]; simpl.
  - split; [discriminate|]. intros [c [r [H _]]]. discriminate.
  - split; [intros H; exists c, s; auto|]. intros [c' [r [[= <- <-] H]]]. exact H.
Qed.
Lemma digit_first_spec s : digit_first s = true <-> digit_start s.
Proof.
  unfold digit_start. destruct s as [|c s]; simpl.
  - split; [discriminate|]. intros [c [r [H _]]]. discriminate.
  - split; [intros H; exists c, s; auto|]. intros [c' [r [[= <- <-] H]]]. exact H.
Qed.

Section IpParents.
  Context (t : table).
  Hypothesis WF : well_formed t.
  Notation ref := (named_ref t).

  Lemma bases_in (f : string -> bool) (T : string) :
    In T (concat (map (fun e => concat (map (fun i => if f (item_value i) then [fst e] else []) (snd e))) t)) <->
    exists v c, entry_value t T v c /\ f v = true.
  Proof.
    rewrite in_concat. split.
    - intros [l [Hl HT]]. apply in_map_iff in Hl. destruct Hl as [[k items] [<- He]]. simpl in HT.
      apply in_concat in HT. destruct HT as [l [Hl HT]]. apply in_map_iff in Hl. destruct Hl as [i [<- Hi]].
      destruct (f (item_value i)) eqn:E; [|destruct HT]. destruct HT as [<-|[]].
      destruct WF as [N W]. destruct (W _ _ _ He Hi) as [v [c Hs]]. rewrite (item_value_says _ _ _ Hs) in E.
      exists v, c. split; [|assumption]. exists items, i. auto.
    - intros [v [c [[items [i [He [Hi Hs]]]] Hf]]]. eexists. split; [apply in_map; exact He|]. simpl.
      apply in_concat. exists [T]. split; [|left; reflexivity]. apply in_map_iff. exists i. split; [|assumption].
      rewrite (item_value_says _ _ _ Hs), Hf. reflexivity.
  Qed.

  Lemma token_bases_spec q T : In T (token_bases t q) <-> value_ref t q T /\ alpha_name q.
  Proof.
    unfold token_bases. rewrite (bases_in (fun v => alpha_first v && String.eqb v q)). split.
    - intros [v [c [He H]]]. apply andb_true_iff in H. destruct H as [H1 H2]. apply String.eqb_eq in H2. subst v.
      split; [exists c; assumption|apply alpha_first_spec, H1].
    - intros [[c He] Ha]. exists q, c. split; [assumption|]. rewrite String.eqb_refl. apply alpha_first_spec in Ha. rewrite Ha. reflexivity.
  Qed.
  Lemma ip_bases_spec parse_ip q T : In T (ip_bases parse_ip t q) <->
    exists v c n, entry_value t T v c /\ digit_start v /\ parse_ip v = Some n /\ supernet_of n q = true.
  Proof.
    assert (E : ip_bases parse_ip t q = concat (map (fun e => concat (map (fun i =>
       if (fun v => digit_first v && match parse_ip v with Some n => supernet_of n q | None => false end) (item_value i)
       then [fst e] else []) (snd e))) t)).
    { unfold ip_bases. f_equal. apply map_ext. intros e. f_equal. apply map_ext. intros i. cbv zeta.
      destruct (digit_first (item_value i)); [|reflexivity]. destruct (parse_ip (item_value i)); [|reflexivity]. destruct (supernet_of n q); reflexivity. }
    rewrite E, (bases_in (fun v => digit_first v && match parse_ip v with Some n => supernet_of n q | None => false end)). split.
    - intros [v [c [He H]]]. apply andb_true_iff in H. destruct H as [H1 H2]. destruct (parse_ip v) as [n|] eqn:Ep; [|discriminate].
      exists v, c, n. split; [assumption|]. split; [apply digit_first_spec, H1|]. auto.
    - intros [v [c [n [He [H1 [H2 H3]]]]]]. exists v, c. split; [assumption|]. apply digit_first_spec in H1. rewrite H1, H2, H3. reflexivity.
  Qed.

  Definition listed (l : table) (v : string) : Prop := exists e, In e l /\ In v (map item_value (snd e)).
  Lemma listed_ref v T : value_ref t v T -> listed t v.
  Proof.
    intros [c [items [i [H1 [H2 H3]]]]]. exists (T, items). split; [assumption|]. simpl. apply in_map_iff. exists i.
    split; [apply (item_value_says _ _ _ H3)|assumption].
  Qed.

  Lemma nscan_result get bp l : forall rp d rp' d', nested_scan get bp l rp d = Ok (rp', d') ->
    (rp' = rp /\ (In bp rp \/ ~ (listed l bp /\ alpha_name bp)) /\ (d' = true -> d = true \/ In bp rp)) \/
    (~ In bp rp /\ alpha_name bp /\ exists sub, get bp = Ok sub /\ rp' = (rp ++ bp :: sub)%list /\ d' = true).
  Proof.
    induction l as [|e l IH]; intros rp d rp' d' H; cbn [nested_scan] in H.
    - injection H as <- <-. left. split; [reflexivity|]. split; [right; intros [[x [[] _]] _]|auto].
    - destruct (str_in bp (map item_value (snd e)) && alpha_first bp) eqn:E.
      + apply andb_true_iff in E. destruct E as [E1 E2]. apply alpha_first_spec in E2.
        destruct (str_in bp rp) eqn:E3.
        * apply str_in_spec in E3. destruct (IH _ _ _ _ H) as [[-> [H1 H2]]|[H1 _]]; [|contradiction]. left. auto.
        * assert (Hn : ~ In bp rp) by (rewrite <- str_in_spec, E3; discriminate).
          apply bind_ok in H. destruct H as [sub [Hs H]]. right. split; [assumption|]. split; [assumption|]. exists sub.
          split; [assumption|]. cbn [app] in H. destruct (IH _ _ _ _ H) as [[-> [_ H2]]|[Hx _]].
          -- split; [reflexivity|].
             clear - H E1 E2 IH. assert (G : forall l rp d rp' d', nested_scan get bp l rp d = Ok (rp', d') -> d = true -> d' = true).
             { clear. induction l as [|e l IH]; intros rp d rp' d' H Hd; cbn [nested_scan] in H; [congruence|].
               destruct (_ && _); [|eapply IH; eassumption]. destruct (str_in bp rp); [eapply IH; [eassumption|reflexivity]|].
               apply bind_ok in H. destruct H as [sub [_ H]]. eapply IH; [eassumption|reflexivity]. }
             eapply G; [eassumption|reflexivity].
          -- exfalso. apply Hx. apply in_or_app. right. left. reflexivity.
      + destruct (IH _ _ _ _ H) as [[-> [H1 H2]]|Hr]; [left|right; assumption]. split; [reflexivity|]. split; [|assumption].
        destruct H1 as [H1|H1]; [auto|]. right. intros [[x [[<-|Hx] Hb]] Ha].
        * apply str_in_spec in Hb. apply alpha_first_spec in Ha. rewrite Hb, Ha in E. discriminate.
        * apply H1. split; [exists x; auto|assumption].
  Qed.
  Lemma nscan_raise get bp l : forall rp d e, nested_scan get bp l rp d = Raise e -> get bp = Raise e /\ alpha_name bp.
  Proof.
    induction l as [|x l IH]; intros rp d e H; cbn [nested_scan] in H; [discriminate|].
    destruct (str_in bp (map item_value (snd x)) && alpha_first bp) eqn:E; [|apply (IH _ _ _ H)].
    destruct (str_in bp rp); [apply (IH _ _ _ H)|].
    apply andb_true_iff in E. destruct E as [_ E]. apply alpha_first_spec in E.
    destruct (get bp) as [sub|e'] eqn:Eg; cbn [bind] in H; [apply (IH _ _ _ H)|]. injection H as ->. auto.
  Qed.
  Lemma neach_raise get bps : forall rp e, nested_each get t bps rp = Raise e ->
    exists bp, In bp bps /\ alpha_name bp /\ get bp = Raise e.
  Proof.
    induction bps as [|bp bps IH]; intros rp e H; cbn [nested_each] in H; [discriminate|].
    destruct (nested_scan get bp t rp false) as [p|e'] eqn:E; cbn [bind] in H.
    - destruct (IH _ _ H) as [b [H1 H2]]. exists b. split; [right|]; assumption.
    - injection H as ->. exists bp. split; [left; reflexivity|]. destruct (nscan_raise _ _ _ _ _ _ E). auto.
  Qed.

  (** Specification of [get]: exactly the named ancestors. *)
  Definition exact (get : string -> res (list string)) : Prop :=
    forall bp l, alpha_name bp -> get bp = Ok l -> forall T, In T l <-> clos_trans _ ref bp T.

  Lemma neach_spec get (HG : exact get) bps : forall rp l,
    (forall x, In x rp -> alpha_name x) ->
    (forall x y, In x rp -> ref x y -> In y rp) ->
    nested_each get t bps rp = Ok l ->
    forall T, In T l <-> In T rp \/ exists b, In b bps /\ alpha_name b /\ (T = b \/ clos_trans _ ref b T).
  Proof.
    induction bps as [|bp bps IH]; intros rp l Hr Hc H T; cbn [nested_each] in H.
    - injection H as <-. split; [auto|]. intros [H|[b [[] _]]]. exact H.
    - apply bind_ok in H. destruct H as [[rp1 d] [H1 H2]]. cbn [fst snd] in H2.
      set (rp2 := if negb d && alpha_first bp && negb (str_in bp rp1) then (rp1 ++ [bp])%list else rp1) in *.
      assert (K : (forall x, In x rp2 <-> In x rp \/ (alpha_name bp /\ (x = bp \/ clos_trans _ ref bp x)))).
      { destruct (nscan_result _ _ _ _ _ _ _ H1) as [[-> [Hl Hd]]|[Hn [Ha [sub [Hs [-> ->]]]]]].
        - intros x. assert (Up : In bp rp -> alpha_name bp /\ (x = bp \/ clos_trans _ ref bp x) -> In x rp).
          { intros Hb [_ [->|Hx]]; [assumption|]. apply clos_trans_tn1 in Hx. induction Hx as [y Hy|y z Hy Hz IHy]; [apply (Hc bp y Hb Hy)|apply (Hc y z IHy Hy)]. }
          subst rp2. destruct (negb d && alpha_first bp && negb (str_in bp rp)) eqn:E.
          + rewrite !andb_true_iff in E. destruct E as [[E1 E2] E3]. apply alpha_first_spec in E2.
            assert (Hnb : ~ In bp rp) by (rewrite <- str_in_spec; destruct (str_in bp rp); [discriminate|congruence]).
            rewrite in_app_iff. split.
            * intros [Hx|[<-|[]]]; [auto|]. right. auto.
            * intros [Hx|[_ [->|Hx]]]; [auto|right; left; reflexivity|].
              exfalso. destruct Hl as [Hl|Hl]; [contradiction|]. apply Hl. split; [|assumption].
              apply clos_trans_t1n in Hx. destruct Hx as [y Hy|y z Hy _]; destruct Hy as [Hy _]; apply (listed_ref _ _ Hy).
          + split; [auto|]. intros [Hx|Hx]; [assumption|]. apply Up; [|assumption]. destruct Hx as [Ha _].
            apply alpha_first_spec in Ha. rewrite Ha, andb_true_r in E. apply andb_false_iff in E.
            destruct E as [E|E].
            * destruct d; [|discriminate]. destruct (Hd eq_refl) as [Hd'|Hd']; [discriminate|assumption].
            * apply str_in_spec. destruct (str_in bp rp); [reflexivity|discriminate].
        - intros x. subst rp2. cbn [negb andb]. rewrite in_app_iff. simpl. rewrite (HG bp sub Ha Hs x). intuition. }
      assert (R2 : forall x, In x rp2 -> alpha_name x).
      { intros x Hx. apply K in Hx. destruct Hx as [Hx|[Ha [->|Hx]]]; [auto|assumption|].
        apply clos_trans_tn1 in Hx. destruct Hx as [y Hy|y z Hy _]; destruct Hy as [_ [_ Hy]]; exact Hy. }
      assert (C2 : forall x y, In x rp2 -> ref x y -> In y rp2).
      { intros x y Hx Hy. apply K. apply K in Hx. destruct Hx as [Hx|[Ha [->|Hx]]].
        - left. apply (Hc x y Hx Hy).
        - right. split; [assumption|]. right. apply t_step, Hy.
        - right. split; [assumption|]. right. apply t_trans with x; [assumption|apply t_step, Hy]. }
      rewrite (IH rp2 l R2 C2 H2 T), (K T). split.
      + intros [[H|H]|[b [Hb H]]]; [auto| |].
        * right. exists bp. split; [left; reflexivity|assumption].
        * right. exists b. split; [right|]; assumption.
      + intros [H|[b [[<-|Hb] H]]]; [auto|auto|]. right. exists b. auto.
  Qed.

  Theorem token_parents_exact : forall fuel q l, alpha_name q -> token_parents fuel t q = Ok l ->
    forall T, In T l <-> clos_trans _ ref q T.
  Proof.
    induction fuel as [|fuel IH]; intros q l Ha H T; [discriminate|]. cbn [token_parents] in H.
    apply bind_ok in H. destruct H as [l0 [H1 H2]]. injection H2 as <-. rewrite sorted_set_in.
    rewrite (neach_spec (token_parents fuel t) IH _ [] l0 (fun x F => match F with end) (fun x y F => match F with end) H1 T).
    split.
    - intros [[]|[b [Hb [Hab Hx]]]]. apply token_bases_spec in Hb. destruct Hb as [Hb _].
      assert (Hr : ref q b) by (split; [assumption|split; assumption]).
      destruct Hx as [->|Hx]; [apply t_step, Hr|]. apply t_trans with b; [apply t_step, Hr|assumption].
    - intros Hx. right. apply clos_trans_t1n in Hx. destruct Hx as [y Hy|y z Hy Hz].
      + exists y. destruct Hy as [Hy [_ Hay]]. split; [apply token_bases_spec; auto|]. auto.
      + exists y. destruct Hy as [Hy [_ Hay]]. split; [apply token_bases_spec; auto|]. split; [assumption|]. right. apply clos_t1n_trans, Hz.
  Qed.
  Theorem token_parents_nonalpha fuel q l : ~ alpha_name q -> token_parents fuel t q = Ok l -> l = [].
  Proof.
    intros Ha H. destruct fuel as [|fuel]; [discriminate|]. cbn [token_parents] in H.
    assert (E : token_bases t q = []).
    { destruct (token_bases t q) as [|x r] eqn:E; [reflexivity|]. exfalso. apply Ha. apply (token_bases_spec q x). rewrite E. left. reflexivity. }
    rewrite E in H. cbn in H. injection H as <-. reflexivity.
  Qed.

  Theorem ip_parents_exact fuel parse_ip q l : ip_parents fuel parse_ip t q = Ok l ->
    StronglySorted str_before l /\
    forall T, In T l <-> exists B, lists_address parse_ip t B q /\ alpha_name B /\ (T = B \/ clos_trans _ ref B T).
  Proof.
    intros H. unfold ip_parents in H. apply bind_ok in H. destruct H as [l0 [H1 H2]]. injection H2 as <-.
    split; [apply sorted_set_before|]. intros T. rewrite sorted_set_in.
    rewrite (neach_spec (token_parents fuel t) (token_parents_exact fuel) _ [] l0 (fun x F => match F with end) (fun x y F => match F with end) H1 T).
    split.
    - intros [[]|[b [Hb Hx]]]. exists b. split; [apply ip_bases_spec, Hb|assumption].
    - intros [b [Hb Hx]]. right. exists b. split; [apply ip_bases_spec, Hb|assumption].
  Qed.

  Lemma token_parents_fuel : forall fuel q, token_parents fuel t q = Raise OutOfFuel ->
    exists c, chain ref q c /\ List.length c = fuel /\ Forall (has_definition t) c.
  Proof.
    induction fuel as [|fuel IH]; intros q H.
    - exists []. split; [exact I|]. split; [reflexivity|constructor].
    - cbn [token_parents] in H. destruct (nested_each _ _ _ _) as [l|e] eqn:E; cbn [bind] in H; [discriminate|]. injection H as ->.
      apply neach_raise in E. destruct E as [bp [Hb [Ha E]]].
      apply token_bases_spec in Hb. destruct Hb as [Hb Haq].
      destruct (IH _ E) as [c [H1 [H2 H3]]]. exists (bp :: c). split; [split; [split; [assumption|split; assumption]|assumption]|].
      split; [simpl; lia|]. constructor; [|assumption].
      destruct Hb as [c' [items [i [Hb _]]]]. unfold has_definition. apply in_map with (f := fst) in Hb. exact Hb.
  Qed.
  Lemma token_parents_no_exn : forall fuel q e, token_parents fuel t q <> Raise (Exn e).
  Proof.
    induction fuel as [|fuel IH]; intros q e H; [discriminate|]. cbn [token_parents] in H.
    destruct (nested_each _ _ _ _) as [l|e'] eqn:E; cbn [bind] in H; [discriminate|]. injection H as ->.
    apply neach_raise in E. destruct E as [bp [_ [_ E]]]. apply (IH _ _ E).
  Qed.
  Theorem token_parents_terminates q fuel :
    (forall T, ~ clos_trans _ ref T T) -> (List.length t < fuel)%nat -> exists l, token_parents fuel t q = Ok l.
  Proof.
    intros Hc Hf. destruct (token_parents fuel t q) as [l|[e|]] eqn:E; [eauto| |].
    - destruct (token_parents_no_exn _ _ _ E).
    - exfalso. destruct (token_parents_fuel _ _ E) as [c [H1 [H2 H3]]].
      destruct c as [|T c]; [simpl in H2; lia|]. destruct H1 as [Hq H1].
      destruct (chain_repeat _ T c H1) as [U [HU1 HU2]].
      + apply pigeon with (map fst t).
        * rewrite map_length. lia.
        * intros x Hx. rewrite Forall_forall in H3. apply H3, Hx.
      + apply (Hc U HU2).
  Qed.
  Theorem ip_parents_terminates parse_ip q fuel :
    (forall T, ~ clos_trans _ ref T T) -> (List.length t < fuel)%nat -> exists l, ip_parents fuel parse_ip t q = Ok l.
  Proof.
    intros Hc Hf. unfold ip_parents. destruct (nested_each _ _ _ _) as [l|e] eqn:E; cbn [bind]; [eauto|].
    exfalso. apply neach_raise in E. destruct E as [bp [_ [_ E]]].
    destruct (token_parents_terminates bp fuel Hc Hf) as [l Hl]. congruence.
  Qed.

  (** ** GetPortParents *)
  Lemma ppp_says i v c : item_says i v c -> ppp i = match split_char "/" v with p :: q :: _ => Some (p, q) | _ => None end.
  Proof. intros H. unfold ppp. rewrite (item_value_says _ _ _ H). reflexivity. Qed.
  Lemma ppp_pair i v c p q : item_says i v c -> (ppp i = Some (p, q) <-> pair_text v p q).
  Proof.
    intros H. rewrite (ppp_says _ _ _ H), split_char_pair. split.
    - destruct (split_char "/" v) as [|a [|b l]]; try discriminate. intros [= -> ->]. eauto.
    - intros [l ->]. reflexivity.
  Qed.

  Lemma to_opt_int s n : to_opt (py_int s) = Some n <-> numeral_value s = Some n.
  Proof.
    rewrite <- py_int_numeral. destruct (py_int s); simpl; split; congruence.
  Qed.

  (** With a numeric query, a successful test says whether the text covers the port. *)
  Lemma ppp_match_spec i v c gp gq n b : item_says i v c -> numeral_value gp = Some n ->
    ppp_match (Some (gp, gq)) i = Ok b -> (b = true <-> covers_port v n gq).
  Proof.
    intros Hs Hn H. unfold ppp_match in H. unfold covers_port.
    destruct (ppp i) as [[p q]|] eqn:E.
    - apply (ppp_pair _ _ _ _ _ Hs) in E. assert (U : forall p' q', pair_text v p' q' -> p' = p /\ q' = q).
      { intros p' q' H'. apply split_char_pair in H', E. destruct H' as [l1 H'], E as [l2 E]. rewrite H' in E. injection E. auto. }
      assert (Hni : py_int gp = Ok n) by (apply py_int_numeral, Hn).
      destruct (is_single_port p && ppp_eq p q (Some (gp, gq))) eqn:E1.
      + injection H as <-. split; [|auto]. intros _. apply andb_true_iff in E1. destruct E1 as [S1 E1]. unfold ppp_eq in E1.
        rewrite Hni in E1. simpl in E1. destruct (py_int p) as [a|] eqn:Ea; simpl in E1; [|discriminate].
        apply andb_true_iff in E1. destruct E1 as [E1 E2]. apply Z.eqb_eq in E1. apply String.eqb_eq in E2. subst.
        apply py_int_numeral in Ea. exists p, n, n. split; [assumption|]. split; [left; auto|lia].
      + destruct (is_range p) eqn:E2.
        * unfold ppp_contains in H. unfold is_range in E2. apply andb_true_iff in E2. destruct E2 as [_ E2].
          rewrite (before_after _ _ E2), split_char_app in H by apply before_char_has.
          destruct (split_char "-" (after_char "-" p)) as [|b0 l0] eqn:Es; [destruct (split_char_nonnil _ _ Es)|].
          assert (Esp : split_char "-" p = before_char "-" p :: b0 :: l0).
          { rewrite (before_after _ _ E2) at 1. rewrite split_char_app, Es by apply before_char_has. reflexivity. }
          rewrite Hni in H. simpl in H.
          destruct (py_int (before_char "-" p)) as [lo|] eqn:El; simpl in H; [|discriminate].
          assert (RT : forall hi lo' hi', py_int b0 = Ok hi -> range_text p lo' hi' -> lo' = lo /\ hi' = hi).
          { intros hi lo' hi' Hb Hr. apply port_pair_spec in Hr. unfold port_pair in Hr. rewrite Esp, El in Hr. cbn [bind] in Hr. rewrite Hb in Hr.
            cbn [bind] in Hr. injection Hr. auto. }
          destruct (py_int b0) as [hi|] eqn:Eh; simpl in H.
          -- injection H as <-. rewrite !andb_true_iff, !Z.leb_le, String.eqb_eq. split.
             ++ intros [[H1 H2] ->]. exists p, lo, hi. split; [assumption|]. split; [|auto]. apply port_pair_spec. unfold port_pair. rewrite Esp, El. cbn [bind]. rewrite Eh. reflexivity.
             ++ intros [p' [lo' [hi' [H1 [H2 H3]]]]]. destruct (U _ _ H1) as [-> ->]. destruct (RT hi lo' hi' eq_refl H2) as [-> ->]. destruct H3. auto.
          -- destruct (lo <=? n)%Z; [discriminate|]. injection H as <-. split; [discriminate|].
             intros [p' [lo' [hi' [H1 [H2 H3]]]]]. destruct (U _ _ H1) as [-> ->]. apply port_pair_spec in H2. unfold port_pair in H2.
             rewrite Esp, El in H2. cbn [bind] in H2. rewrite Eh in H2. discriminate.
        * injection H as <-. split; [discriminate|]. intros [p' [lo [hi [H1 [H2 H3]]]]]. destruct (U _ _ H1) as [-> ->].
          assert (Hd : has_char "-" p = false /\ p <> "").
          { unfold is_range, nonempty in E2. destruct p as [|c0 p].
            - exfalso. destruct H2 as [[H2 _]|[a [b [Ha [Hb [H2|[r H2]]]]]]]; [discriminate| |]; destruct a; try discriminate H2; discriminate Ha.
            - split; [exact E2|discriminate]. }
          destruct Hd as [Hd Hp]. assert (Hs1 : is_single_port p = true).
          { unfold is_single_port, nonempty. rewrite Hd. destruct p; [congruence|reflexivity]. }
          rewrite Hs1 in E1. cbn [andb] in E1. destruct H2 as [[H2 ->]|[a [b [Ha [Hb H2]]]]].
          -- unfold ppp_eq in E1. rewrite Hni in E1. apply py_int_numeral in H2. rewrite H2 in E1. simpl in E1.
             rewrite String.eqb_refl, andb_true_r in E1. apply Z.eqb_neq in E1. lia.
          -- exfalso. assert (has_char "-" p = true); [|congruence]. destruct H2 as [->|[r ->]]; rewrite !has_char_app; simpl; rewrite ?orb_true_r; reflexivity.
    - injection H as <-. split; [discriminate|]. intros [p [lo [hi [H1 _]]]]. apply (ppp_pair _ _ _ _ _ Hs) in H1. congruence.
  Qed.
  Lemma any_match_spec gp gq n l b : (forall x, In x l -> exists v c, item_says x v c) -> numeral_value gp = Some n ->
    any_match (Some (gp, gq)) l = Ok b -> (b = true <-> exists x v c, In x l /\ item_says x v c /\ covers_port v n gq).
  Proof.
    intros Hl Hn. revert b. induction l as [|x l IH]; intros b H; cbn [any_match] in H.
    - injection H as <-. split; [discriminate|]. intros [x [v [c [[] _]]]].
    - apply bind_ok in H. destruct H as [b1 [H1 H]]. apply bind_ok in H. destruct H as [b2 [H2 H]]. injection H as <-.
      destruct (Hl x (or_introl eq_refl)) as [v [c Hs]]. rewrite orb_true_iff, (ppp_match_spec _ _ _ _ _ _ _ Hs Hn H1).
      rewrite (IH (fun y Hy => Hl y (or_intror Hy)) b2 H2). split.
      + intros [Hc|[y [v' [c' [Hy Hc]]]]]; [exists x, v, c; split; [left; reflexivity|auto]|exists y, v', c'; split; [right|]; assumption].
      + intros [y [v' [c' [[<-|Hy] Hc]]]]; [left|right; exists y, v', c'; auto].
        destruct Hc as [Hs' Hc]. rewrite <- (item_value_says _ _ _ Hs'), (item_value_says _ _ _ Hs) in Hc. exact Hc.
  Qed.
  Lemma direct_matches_spec gp gq n : numeral_value gp = Some n -> forall l ms, incl l t ->
    direct_matches (Some (gp, gq)) l = Ok ms ->
    forall T, In T ms <-> exists items x v c, In (T, items) l /\ In x items /\ item_says x v c /\ covers_port v n gq.
  Proof.
    intros Hn. induction l as [|[k items] l IH]; intros ms Hi H T; cbn [direct_matches] in H.
    - injection H as <-. split; [intros []|]. intros [items [x [v [c [[] _]]]]].
    - apply bind_ok in H. destruct H as [b [H1 H]]. apply bind_ok in H. destruct H as [r [H2 H]]. injection H as <-. cbn [fst snd] in *.
      assert (Hit : forall x, In x items -> exists v c, item_says x v c).
      { intros x Hx. destruct WF as [_ W]. apply (W k items x); [apply Hi; left; reflexivity|assumption]. }
      pose proof (any_match_spec _ _ _ _ _ Hit Hn H1) as A.
      pose proof (IH r (fun y Hy => Hi y (or_intror Hy)) H2 T) as B. split.
      + intros HT. assert (Hor : (b = true /\ T = k) \/ In T r) by (destruct b; [destruct HT; auto|auto]).
        destruct Hor as [[Hb ->]|Hr].
        * apply A in Hb. destruct Hb as [x [v [c Hb]]]. exists items, x, v, c. split; [left; reflexivity|tauto].
        * apply B in Hr. destruct Hr as [its [x [v [c [Hr1 Hr2]]]]]. exists its, x, v, c. split; [right; assumption|assumption].
      + intros [its [x [v [c [[[= <- <-]|Hin] Hx]]]]].
        * assert (Hb : b = true) by (apply A; exists x, v, c; tauto). rewrite Hb. left. reflexivity.
        * assert (Hr : In T r) by (apply B; exists its, x, v, c; tauto). destruct b; [right|]; assumption.
  Qed.
  Lemma nested_matches_spec fuel gp gq n : numeral_value gp = Some n -> forall bps ms,
    (forall b, In b bps -> word b) -> nested_matches fuel t (Some (gp, gq)) bps = Ok ms ->
    forall T, In T ms <-> In T bps /\ exists s, service_in t T s /\ covers_port s n gq.
  Proof.
    intros Hn. induction bps as [|bp bps IH]; intros ms Hw H T; cbn [nested_matches] in H.
    - injection H as <-. split; [intros []|]. intros [[] _].
    - apply bind_ok in H. destruct H as [l [H0 H]]. apply bind_ok in H. destruct H as [b [H1 H]]. apply bind_ok in H. destruct H as [r [H2 H]]. injection H as <-.
      destruct (get_service_ok t WF fuel bp bp l (query_token_word _ (Hw bp (or_introl eq_refl))) H0) as [S _].
      assert (Hsw : forall s, service_in t bp s -> word s).
      { intros s Hs. clear - Hs. induction Hs as [T v c He Ho|T v c s He Ho Hs IH]; [apply (entry_word _ _ _ _ He)|assumption]. }
      assert (Hit : forall x, In x l -> exists v c, item_says x v c).
      { intros x Hx. exists x, "". constructor. apply Hsw, S, Hx. }
      pose proof (any_match_spec _ _ _ _ _ Hit Hn H1) as A.
      assert (A' : b = true <-> exists s, service_in t bp s /\ covers_port s n gq).
      { rewrite A. split.
        - intros [x [v [c [Hx [Hs Hc]]]]]. exists x. split; [apply S, Hx|].
          assert (E : item_value x = x) by (apply (item_value_says x x ""); constructor; apply Hsw, S, Hx).
          rewrite <- (item_value_says _ _ _ Hs), E in Hc. exact Hc.
        - intros [s [Hs Hc]]. exists s, s, "". split; [apply S, Hs|]. split; [constructor; apply Hsw, Hs|assumption]. }
      pose proof (IH r (fun y Hy => Hw y (or_intror Hy)) H2 T) as B. split.
      + intros HT. assert (Hor : (b = true /\ T = bp) \/ In T r) by (destruct b; [destruct HT; auto|auto]).
        destruct Hor as [[Hb ->]|Hr]; [split; [left; reflexivity|apply A', Hb]|]. apply B in Hr. destruct Hr. split; [right|]; assumption.
      + intros [[->|Hin] Hx].
        * assert (Hb : b = true) by (apply A', Hx). rewrite Hb. left. reflexivity.
        * assert (Hr : In T r) by (apply B; auto). destruct b; [right|]; assumption.
  Qed.

  Theorem port_parents_exact fuel query proto n l : (forall T, has_definition t T -> word T) ->
    numeral_value query = Some n -> word proto -> ~ occurs "/" proto ->
    get_port_parents fuel t query proto = Ok l ->
    l <> [] /\ StronglySorted str_before l /\
    forall T, In T l <-> exists s, service_in t T s /\ covers_port s n proto.
  Proof.
    intros HW Hn Hp Hps H. unfold get_port_parents in H.
    assert (Eg : ppp (query ++ "/" ++ proto) = Some (query, proto)).
    { assert (Hq : word query).
      { unfold numeral_value in Hn. destruct query as [|c q]; [discriminate|]. rewrite digits_value_int in Hn.
        destruct (forall_char is_digit (String c q)) eqn:E; [|discriminate]. rewrite forall_char_occurs in E.
        split; [discriminate|]. split.
        - intros d Hd. specialize (E d Hd). clear - E. unfold is_digit, is_ws in *. apply andb_true_iff in E. destruct E as [E1 E2].
          apply Nat.leb_le in E1, E2. apply orb_false_iff. split; apply andb_false_iff; right; apply Nat.leb_gt; lia.
        - intros Ho. specialize (E _ Ho). discriminate. }
      assert (Hw : word (query ++ "/" ++ proto)).
      { apply word_intro.
        - destruct query; [destruct (word_ne _ Hq eq_refl)|discriminate].
        - unfold no_ws. rewrite !forall_char_app. rewrite (word_no_ws _ Hq), (word_no_ws _ Hp). reflexivity.
        - rewrite !has_char_app, (word_hash _ Hq), (word_hash _ Hp). reflexivity. }
      apply (ppp_pair _ _ "" query proto (is_bare _ Hw)). split.
      - apply not_occurs. eapply numeral_no_char; [reflexivity|exact Hn].
      - split; [assumption|]. left. reflexivity. }
    rewrite Eg in H. apply bind_ok in H. destruct H as [m1 [H1 H]]. apply bind_ok in H. destruct H as [m2 [H2 H]].
    pose proof (direct_matches_spec _ _ _ Hn t m1 (incl_refl t) H1) as D.
    assert (Hbw : forall b, In b (map fst (filter (fun e => existsb is_nested (snd e)) t)) -> word b).
    { intros b Hb. apply HW. apply in_map_iff in Hb. destruct Hb as [e [<- He]]. apply filter_In in He. destruct He as [He _]. apply in_map, He. }
    pose proof (nested_matches_spec fuel _ _ _ Hn _ m2 Hbw H2) as N.
    assert (R : forall T, In T (m1 ++ m2)%list <-> exists s, service_in t T s /\ covers_port s n proto).
    { intros T. rewrite in_app_iff, (D T), (N T). split.
      - intros [[items [x [v [c [Hin [Hx [Hs Hc]]]]]]]|[_ HT]]; [|assumption]. exists v. split; [|assumption].
        apply si_here with c; [exists items, x; auto|]. destruct Hc as [p [lo [hi [[_ [_ Hc]] _]]]].
        apply occurs_has. destruct Hc as [->|[r ->]]; rewrite !has_char_app; simpl; rewrite ?orb_true_r; reflexivity.
      - intros [s [Hs Hc]]. pose proof Hs as Hs'. destruct Hs' as [T v c He Ho|T v c s He Ho Hs'].
        + left. destruct He as [items [i [E1 [E2 E3]]]]. exists items, i, v, c. auto.
        + right. split; [|eauto]. destruct He as [items [i [E1 [E2 E3]]]]. apply in_map_iff. exists (T, items). split; [reflexivity|].
          apply filter_In. split; [assumption|]. simpl. apply existsb_exists. exists i. split; [assumption|]. unfold is_nested.
          rewrite (ppp_says _ _ _ E3). apply not_occurs in Ho. rewrite split_char_none by assumption. reflexivity. }
    destruct (m1 ++ m2)%list as [|x r] eqn:Em; [discriminate|]. injection H as <-. split; [|split].
    - intros E. assert (Hin : In x (sorted_set (x :: r))) by (apply sorted_set_in; left; reflexivity). rewrite E in Hin. destruct Hin.
    - apply sorted_set_before.
    - intros T. rewrite sorted_set_in. apply R.
  Qed.
End IpParents.
