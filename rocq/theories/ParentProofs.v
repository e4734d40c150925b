(** Which definitions contain a value (_GetParents). *)
From Coq Require Import Lia Sorted Relations Permutation.
From Verif Require Import BaseFacts PyStrFacts SpecNaming NamingProofs.
Local Open Scope string_scope.

Section Parents.
  Context (t : table).
  Hypothesis WF : well_formed t.

  Lemma direct_parents_spec q T : In T (direct_parents t q) <-> value_ref t q T.
  Proof.
    unfold direct_parents, value_ref. rewrite in_map_iff. split.
    - intros [[k items] [<- H]]. apply filter_In in H. destruct H as [H1 H2]. simpl in *.
      apply str_in_spec, in_map_iff in H2. destruct H2 as [i [Hv Hi]].
      destruct WF as [N W]. destruct (W _ _ _ H1 Hi) as [v [c Hs]].
      rewrite (item_value_says _ _ _ Hs) in Hv. subst v. exists c, items, i. auto.
    - intros [c [items [i [H1 [H2 H3]]]]]. exists (T, items). split; [reflexivity|]. apply filter_In.
      split; [assumption|]. simpl. apply str_in_spec, in_map_iff. exists i. split; [|assumption].
      apply (item_value_says _ _ _ H3).
  Qed.

  Definition raw_listed (l : table) (v : string) : Prop := exists e, In e l /\ In v (snd e).

  Lemma scan_result get bp l : forall rp rp', parents_scan get bp l rp = Ok rp' ->
    (rp' = rp /\ (raw_listed l bp -> In bp rp)) \/
    (~ In bp rp /\ exists sub, get bp = Ok sub /\ rp' = (rp ++ bp :: sub)%list).
  Proof.
    induction l as [|e l IH]; intros rp rp' H; cbn [parents_scan] in H.
    - injection H as <-. left. split; [reflexivity|]. intros [x [[] _]].
    - destruct (str_in bp (snd e) && negb (str_in bp rp)) eqn:E.
      + apply andb_true_iff in E. destruct E as [E1 E2]. apply bind_ok in H. destruct H as [sub [Hs H]].
        assert (Hn : ~ In bp rp) by (rewrite <- str_in_spec; destruct (str_in bp rp); [discriminate|congruence]).
        right. split; [assumption|]. exists sub. split; [assumption|]. cbn [app] in H.
        destruct (IH _ _ H) as [[-> _]|[Hx _]]; [reflexivity|]. exfalso. apply Hx. apply in_or_app. right. left. reflexivity.
      + destruct (IH _ _ H) as [[-> Hr]|Hr]; [left|right; assumption]. split; [reflexivity|].
        intros [x [[<-|Hx] Hb]]; [|apply Hr; exists x; auto].
        apply andb_false_iff in E. apply str_in_spec in Hb. rewrite Hb in E. destruct E as [E|E]; [discriminate|].
        apply str_in_spec. destruct (str_in bp rp); [reflexivity|discriminate].
  Qed.
  Lemma scan_raise get bp l : forall rp e, parents_scan get bp l rp = Raise e -> get bp = Raise e.
  Proof.
    induction l as [|x l IH]; intros rp e H; cbn [parents_scan] in H; [discriminate|].
    destruct (str_in bp (snd x) && negb (str_in bp rp)); [|apply (IH _ _ H)].
    destruct (get bp) as [sub|e'] eqn:E; cbn [bind] in H; [apply (IH _ _ H)|congruence].
  Qed.
  Lemma each_raise get bps : forall rp e, parents_each get t bps rp = Raise e ->
    exists bp, In bp bps /\ get bp = Raise e.
  Proof.
    induction bps as [|bp bps IH]; intros rp e H; cbn [parents_each] in H; [discriminate|].
    destruct (parents_scan get bp t rp) as [rp'|e'] eqn:E; cbn [bind] in H.
    - destruct (IH _ _ H) as [b [H1 H2]]. exists b. split; [right|]; assumption.
    - injection H as ->. exists bp. split; [left; reflexivity|]. apply (scan_raise _ _ _ _ _ E).
  Qed.

  Lemma each_sound get q (HG : forall bp l T, get bp = Ok l -> In T l -> contains_value t bp T) bps :
    forall rp l, (forall bp, In bp bps -> value_ref t q bp) ->
      (forall T, In T rp -> contains_value t q T) ->
      parents_each get t bps rp = Ok l -> forall T, In T l -> contains_value t q T.
  Proof.
    induction bps as [|bp bps IH]; intros rp l Hb Hr H; cbn [parents_each] in H.
    - injection H as <-. exact Hr.
    - apply bind_ok in H. destruct H as [rp' [H1 H2]].
      assert (Hq : contains_value t q bp) by (apply t_step, Hb; left; reflexivity).
      assert (Hr' : forall T, In T rp' -> contains_value t q T).
      { destruct (scan_result _ _ _ _ _ H1) as [[-> _]|[_ [sub [Hs ->]]]]; [assumption|].
        intros T HT. apply in_app_or in HT. destruct HT as [HT|[<-|HT]]; [auto|assumption|].
        apply t_trans with bp; [assumption|]. apply (HG bp sub T Hs HT). }
      apply (IH _ l) with (3 := H2).
      + intros b Hin. apply Hb. right. exact Hin.
      + destruct (str_in bp rp'); [assumption|]. intros T HT. apply in_app_or in HT.
        destruct HT as [HT|[<-|[]]]; auto.
  Qed.

  Theorem get_parents_sound : forall fuel q l T, get_parents fuel t q = Ok l -> In T l -> contains_value t q T.
  Proof.
    induction fuel as [|fuel IH]; intros q l T H HT; [discriminate|]. cbn [get_parents] in H.
    eapply each_sound with (4 := H); [exact IH| | |exact HT].
    - intros bp Hb. apply direct_parents_spec, Hb.
    - intros x [].
  Qed.

  (** References between definitions are written without a comment. *)
  Hypothesis BARE : forall T v c, entry_value t T v c -> has_definition t v ->
    exists items, In (T, items) t /\ In v items.

  Lemma ref_raw v T : value_ref t v T -> has_definition t v -> raw_listed t v.
  Proof. intros [c He] Hd. destruct (BARE _ _ _ He Hd) as [items [H1 H2]]. exists (T, items). auto. Qed.
  Lemma value_ref_def v T : value_ref t v T -> has_definition t T.
  Proof. intros [c [items [i [H _]]]]. unfold has_definition. apply in_map with (f := fst) in H. exact H. Qed.

  (** [rp] contains every parent of its members. *)
  Definition up_closed (rp : list string) : Prop := forall x y, In x rp -> value_ref t x y -> In y rp.

  Lemma each_complete get
    (HS : forall bp l T, get bp = Ok l -> In T l -> contains_value t bp T)
    (HG : forall bp l, get bp = Ok l -> forall T, contains_value t bp T -> In T l) bps :
    forall rp l, (forall bp, In bp bps -> has_definition t bp) -> up_closed rp ->
      parents_each get t bps rp = Ok l -> up_closed l /\ incl rp l /\ incl bps l.
  Proof.
    induction bps as [|bp bps IH]; intros rp l Hb Hr H; cbn [parents_each] in H.
    - injection H as <-. split; [assumption|]. split; [apply incl_refl|intros x []].
    - apply bind_ok in H. destruct H as [rp' [H1 H2]].
      assert (K : up_closed (if str_in bp rp' then rp' else (rp' ++ [bp])%list) /\
                  incl rp (if str_in bp rp' then rp' else (rp' ++ [bp])%list) /\
                  In bp (if str_in bp rp' then rp' else (rp' ++ [bp])%list)).
      { destruct (scan_result _ _ _ _ _ H1) as [[-> Hraw]|[_ [sub [Hs ->]]]].
        - destruct (str_in bp rp) eqn:E.
          + apply str_in_spec in E. split; [assumption|]. split; [apply incl_refl|assumption].
          + split; [|split; [apply incl_appl, incl_refl|apply in_or_app; right; left; reflexivity]].
            intros x y Hx Hy. apply in_app_or in Hx. apply in_or_app. destruct Hx as [Hx|[<-|[]]]; [left; eapply Hr; eassumption|].
            exfalso. assert (Hin : In bp rp) by (apply Hraw; eapply ref_raw; [exact Hy|apply Hb; left; reflexivity]).
            apply str_in_spec in Hin. congruence.
        - assert (E : str_in bp (rp ++ bp :: sub) = true) by (apply str_in_spec, in_or_app; right; left; reflexivity).
          rewrite E. split; [|split; [apply incl_appl, incl_refl|apply str_in_spec, E]].
          intros x y Hx Hy. apply in_app_or in Hx. apply in_or_app. destruct Hx as [Hx|[<-|Hx]].
          + left. eapply Hr; eassumption.
          + right. right. apply (HG bp sub Hs). apply t_step, Hy.
          + right. right. apply (HG bp sub Hs). apply t_trans with x; [|apply t_step, Hy].
            apply (HS bp sub x Hs Hx). }
      destruct K as [K1 [K2 K3]].
      destruct (IH _ l (fun b Hin => Hb b (or_intror Hin)) K1 H2) as [J1 [J2 J3]].
      split; [assumption|]. split; [intros x Hx; apply J2, K2, Hx|].
      intros x [<-|Hx]; [apply J2, K3|apply J3, Hx].
  Qed.

  Theorem get_parents_complete : forall fuel q l, get_parents fuel t q = Ok l ->
    forall T, contains_value t q T -> In T l.
  Proof.
    induction fuel as [|fuel IH]; intros q l H T HT; [discriminate|]. cbn [get_parents] in H.
    assert (J : up_closed l /\ incl [] l /\ incl (direct_parents t q) l).
    { apply (each_complete (get_parents fuel t)) with (rp := []); try assumption.
      - intros bp l0 T0. apply get_parents_sound.
      - intros bp Hb. apply direct_parents_spec in Hb. apply (value_ref_def _ _ Hb).
      - intros x y []. }
    destruct J as [J1 [_ J3]].
    apply clos_trans_tn1 in HT. induction HT as [T HT|U T HT HU IHU].
      + apply J3, direct_parents_spec, HT.
      + apply (J1 U T IHU HT).
  Qed.
End Parents.

Lemma get_parents_fuel t : well_formed t -> forall fuel q, get_parents fuel t q = Raise OutOfFuel ->
  exists c, chain (value_ref t) q c /\ List.length c = fuel /\ Forall (has_definition t) c.
Proof.
  intros WF. induction fuel as [|fuel IH]; intros q H.
  - exists []. split; [exact I|]. split; [reflexivity|constructor].
  - cbn [get_parents] in H. apply each_raise in H. destruct H as [bp [Hb H]].
    apply (direct_parents_spec t WF) in Hb.
    destruct (IH _ H) as [c [H1 [H2 H3]]]. exists (bp :: c). split; [split; assumption|]. split; [simpl; lia|].
    constructor; [apply (value_ref_def t _ _ Hb)|assumption].
Qed.
Lemma get_parents_no_exn t : forall fuel q e, get_parents fuel t q <> Raise (Exn e).
Proof.
  induction fuel as [|fuel IH]; intros q e H; [discriminate|]. cbn [get_parents] in H.
  apply each_raise in H. destruct H as [bp [_ H]]. apply (IH _ _ H).
Qed.
Theorem get_parents_terminates t : well_formed t -> forall q fuel,
  (forall T, contains_value t q T -> ~ contains_value t T T) -> (List.length t < fuel)%nat ->
  exists l, get_parents fuel t q = Ok l.
Proof.
  intros WF q fuel Hc Hf. destruct (get_parents fuel t q) as [l|[e|]] eqn:E; [eauto| |].
  - destruct (get_parents_no_exn _ _ _ _ E).
  - exfalso. destruct (get_parents_fuel t WF _ _ E) as [c [H1 [H2 H3]]].
    destruct c as [|T c]; [simpl in H2; lia|]. destruct H1 as [Hq H1].
    destruct (chain_repeat _ T c H1) as [U [HU1 HU2]].
    + apply pigeon with (map fst t).
      * rewrite map_length. lia.
      * intros x Hx. rewrite Forall_forall in H3. apply H3, Hx.
    + apply (Hc U); [|assumption]. apply t_step in Hq. clear - Hq HU1. induction HU1 as [x y H|x|x y z H1 IH1 H2 IH2].
      * apply t_trans with x; [assumption|apply t_step, H].
      * assumption.
      * apply IH2, IH1, Hq.
Qed.
