(** GetServiceByProto and TranslatePorts. *)
From Coq Require Import Lia Sorted Relations Permutation.
From Verif Require Import BaseFacts PyStrFacts SpecNaming NamingProofs ServiceProofs.
Local Open Scope string_scope.

Lemma split_char_two c s a b l : split_char c s = a :: b :: l ->
  has_char c a = false /\ has_char c b = false /\
  ((l = [] /\ s = a ++ String c b) \/ exists r, l <> [] /\ s = a ++ String c (b ++ String c r)).
Proof.
  intros H. assert (Ha : has_char c a = false) by (apply (split_char_sub c s a); rewrite H; left; reflexivity).
  assert (Hb : has_char c b = false) by (apply (split_char_sub c s b); rewrite H; right; left; reflexivity).
  split; [assumption|]. split; [assumption|].
  destruct (has_char c s) eqn:Hs; [|rewrite split_char_none in H by assumption; discriminate].
  pose proof (before_after c s Hs) as E. pose proof (before_char_has c s) as Hb1.
  rewrite E, split_char_app in H by assumption. injection H as H1 H2.
  destruct (has_char c (after_char c s)) eqn:Hs2.
  - pose proof (before_after c _ Hs2) as E2. pose proof (before_char_has c (after_char c s)) as Hb2.
    rewrite E2, split_char_app in H2 by assumption. injection H2 as H3 H4.
    right. exists (after_char c (after_char c s)). split; [subst l; apply split_char_nonnil|].
    rewrite <- H3, <- E2, <- H1. exact E.
  - rewrite split_char_none in H2 by assumption. injection H2 as H3 H4. left. split; [congruence|].
    rewrite <- H3, <- H1. exact E.
Qed.

Lemma split_char_pair s p q : pair_text s p q <-> exists l, split_char "/" s = p :: q :: l.
Proof.
  unfold pair_text. rewrite !not_occurs. split.
  - intros [Hp [Hq [->|[r ->]]]].
    + exists []. change ("/" ++ q) with (String "/" q). rewrite split_char_app, split_char_none by assumption. reflexivity.
    + exists (split_char "/" r). change ("/" ++ q ++ "/" ++ r) with (String "/" (q ++ String "/" r)).
      rewrite !split_char_app by assumption. reflexivity.
  - intros [l H]. apply split_char_two in H. destruct H as [H1 [H2 [[_ ->]|[r [_ ->]]]]]; auto.
    split; [assumption|]. split; [assumption|]. right. exists r. reflexivity.
Qed.

Theorem service_by_proto_spec t fuel q T proto l : well_formed t -> query_token q = Ok T ->
  get_service_by_proto fuel t q proto = Ok l ->
  StronglySorted str_before l /\ forall p, In p l <-> service_port t T proto p.
Proof.
  intros WF Hq H. unfold get_service_by_proto in H. rewrite Hq in H. cbn [bind] in H.
  destruct (negb (defined T t)); [discriminate|]. apply bind_ok in H. destruct H as [sl [H1 H2]].
  injection H2 as <-. split; [apply sorted_set_before|]. intros p.
  destruct (get_service_ok t WF fuel T T sl) as [HS _]; [|assumption|].
  { apply query_token_word, (query_token_is_word _ _ Hq). }
  rewrite sorted_set_in, in_concat. unfold service_port. split.
  - intros [ps [Hps Hin]]. apply in_map_iff in Hps. destruct Hps as [s [<- Hs]]. apply HS in Hs.
    destruct (split_char "/" s) as [|a [|b r]] eqn:E; try destruct Hin.
    destruct (String.eqb (upper b) (upper proto)) eqn:Eu; [|destruct Hin]. destruct Hin as [<-|[]].
    exists s, b. split; [assumption|]. split; [apply split_char_pair; eauto|]. apply String.eqb_eq, Eu.
  - intros [s [b [Hs [Hp Hu]]]]. apply split_char_pair in Hp. destruct Hp as [r E].
    exists [p]. split; [|left; reflexivity]. apply in_map_iff. exists s. split; [|apply HS, Hs].
    rewrite E, Hu, String.eqb_refl. reflexivity.
Qed.

Lemma service_by_proto_exn t fuel q T proto e : well_formed t -> query_token q = Ok T ->
  get_service_by_proto fuel t q proto = Raise (Exn e) ->
  e = "UndefinedServiceError" /\ exists U, service_reach t T U /\ ~ has_definition t U.
Proof.
  intros WF Hq H. unfold get_service_by_proto in H. rewrite Hq in H. cbn [bind] in H.
  destruct (negb (defined T t)) eqn:Ed.
  - injection H as <-. split; [reflexivity|]. exists T. split; [apply rt_refl|]. rewrite <- defined_has.
    destruct (defined T t); [discriminate|congruence].
  - destruct (get_service fuel t T) as [l|e'] eqn:E; cbn [bind] in H; [discriminate|]. injection H as ->.
    apply (get_service_exn t WF fuel T T e); [|assumption]. apply query_token_word, (query_token_is_word _ _ Hq).
Qed.
Lemma service_by_proto_fuel t fuel q T proto : well_formed t -> query_token q = Ok T ->
  ~ service_cycle t T -> (List.length t < fuel)%nat ->
  get_service_by_proto fuel t q proto <> Raise OutOfFuel.
Proof.
  intros WF Hq Hc Hf H. unfold get_service_by_proto in H. rewrite Hq in H. cbn [bind] in H.
  destruct (negb (defined T t)); [discriminate|].
  destruct (get_service fuel t T) as [l|e'] eqn:E; cbn [bind] in H; [discriminate|]. injection H as ->.
  apply (get_service_terminates t WF fuel T T); try assumption. apply query_token_word, (query_token_is_word _ _ Hq).
Qed.

(** Numerals *)
Lemma digit_value_digit c : digit_value c = if is_digit c then Some (digit_of c) else None.
Proof.
  unfold digit_value, is_digit, digit_of. destruct ((48 <=? nat_of_ascii c) && (nat_of_ascii c <=? 57))%nat eqn:E; [|reflexivity].
  f_equal. apply andb_true_iff in E. destruct E as [E _]. apply Nat.leb_le in E. lia.
Qed.
Lemma digits_value_int s : forall acc, digits_value s acc =
  if forall_char is_digit s then Some (int_digits s acc) else None.
Proof.
  induction s as [|c s IH]; intros acc; cbn [digits_value forall_char int_digits]; [reflexivity|].
  rewrite digit_value_digit. destruct (is_digit c); [|reflexivity]. apply IH.
Qed.
Lemma py_int_numeral s n : py_int s = Ok n <-> numeral_value s = Some n.
Proof.
  unfold py_int, digits, nonempty, numeral_value. destruct s as [|c s]; [simpl; split; discriminate|].
  rewrite digits_value_int. cbn [is_empty negb andb]. destruct (forall_char is_digit (String c s)); split; congruence.
Qed.
Lemma numeral_no_char c s n : is_digit c = false -> numeral_value s = Some n -> has_char c s = false.
Proof.
  intros Hc H. unfold numeral_value in H. destruct s as [|d s]; [discriminate|]. rewrite digits_value_int in H.
  destruct (forall_char is_digit (String d s)) eqn:E; [|discriminate]. apply not_occurs. intros Ho.
  rewrite forall_char_occurs in E. rewrite (E c Ho) in Hc. discriminate.
Qed.

Lemma port_pair_spec p lo hi : port_pair p = Ok (lo, hi) <-> range_text p lo hi.
Proof.
  unfold port_pair, range_text. split.
  - destruct (split_char "-" p) as [|a [|b l]] eqn:E; [discriminate| |].
    + intros H. apply bind_ok in H. destruct H as [n [H1 H2]]. injection H2 as <- <-.
      assert (a = p).
      { destruct (has_char "-" p) eqn:Eh; [|rewrite split_char_none in E by assumption; congruence].
        pose proof (before_after _ _ Eh) as E2. rewrite E2, split_char_app in E by apply before_char_has.
        injection E as _ E. destruct (split_char_nonnil _ _ E). }
      subst a. left. apply py_int_numeral in H1. auto.
    + intros H. apply bind_ok in H. destruct H as [n [H1 H]]. apply bind_ok in H. destruct H as [m [H2 H]].
      injection H as <- <-. apply py_int_numeral in H1, H2. right. exists a, b. split; [assumption|]. split; [assumption|].
      apply split_char_two in E. destruct E as [_ [_ [[_ ->]|[r [_ ->]]]]]; [left; reflexivity|right; exists r; reflexivity].
  - intros [[H ->]|[a [b [Ha [Hb H]]]]].
    + rewrite split_char_none by (eapply numeral_no_char; [reflexivity|eassumption]).
      apply py_int_numeral in H. rewrite H. reflexivity.
    + assert (Na : has_char "-" a = false) by (eapply numeral_no_char; [reflexivity|eassumption]).
      assert (Nb : has_char "-" b = false) by (eapply numeral_no_char; [reflexivity|eassumption]).
      apply py_int_numeral in Ha, Hb. destruct H as [->|[r ->]].
      * change (a ++ "-" ++ b) with (a ++ String "-" b). rewrite split_char_app, split_char_none by assumption.
        rewrite Ha. cbn [bind]. rewrite Hb. reflexivity.
      * change (a ++ "-" ++ b ++ "-" ++ r) with (a ++ String "-" (b ++ String "-" r)).
        rewrite !split_char_app by assumption. rewrite Ha. cbn [bind]. rewrite Hb. reflexivity.
Qed.

Theorem translate_ports_spec t fuel ports protocols l : well_formed t ->
  translate_ports fuel t ports protocols = Ok l ->
  forall lo hi, In (lo, hi) l <->
    exists port T proto p, In port ports /\ query_token port = Ok T /\ In proto protocols /\
      service_port t T proto p /\ range_text p lo hi.
Proof.
  intros WF H lo hi. unfold translate_ports in H. apply bind_ok in H. destruct H as [parts [HM H]].
  injection H as <-. apply mapM_ok_all in HM.
  rewrite in_concat. split.
  - intros [ps [Hps Hin]]. apply in_map_iff in Hps. destruct Hps as [part [<- Hpart]].
    destruct (Forall2_in_r _ _ _ _ HM Hpart) as [proto [Hproto HP]]. apply mapM_ok_all in HP.
    apply in_concat in Hin. destruct Hin as [rs [Hrs Hin]].
    destruct (Forall2_in_r _ _ _ _ HP Hrs) as [port [Hport HQ]]. apply bind_ok in HQ.
    destruct HQ as [sl [HS HR]]. apply mapM_ok_all in HR. destruct (Forall2_in_r _ _ _ _ HR Hin) as [p [Hp Hpp]].
    destruct (query_token port) as [T|e] eqn:Eq.
    + exists port, T, proto, p. split; [assumption|]. split; [assumption|]. split; [assumption|].
      destruct (service_by_proto_spec t fuel port T proto sl WF Eq HS) as [_ HI]. split; [apply HI, Hp|].
      apply port_pair_spec, Hpp.
    + unfold get_service_by_proto in HS. rewrite Eq in HS. discriminate.
  - intros [port [T [proto [p [H1 [H2 [H3 [H4 H5]]]]]]]].
    destruct (Forall2_in_l _ _ _ _ HM H3) as [part [Hpart HP]]. apply mapM_ok_all in HP.
    destruct (Forall2_in_l _ _ _ _ HP H1) as [rs [Hrs HQ]]. apply bind_ok in HQ.
    destruct HQ as [sl [HS HR]]. apply mapM_ok_all in HR.
    destruct (service_by_proto_spec t fuel port T proto sl WF H2 HS) as [_ HI]. apply HI in H4.
    destruct (Forall2_in_l _ _ _ _ HR H4) as [r [Hr Hpp]]. apply port_pair_spec in H5.
    exists (concat part). split; [apply in_map, Hpart|]. apply in_concat. exists rs. split; [assumption|]. congruence.
Qed.

Lemma port_pair_raise p e : port_pair p = Raise e -> e = Exn "ValueError" /\ forall lo hi, ~ range_text p lo hi.
Proof.
  intros H. split.
  - unfold port_pair in H. destruct (split_char "-" p) as [|a [|b l]] eqn:E; [destruct (split_char_nonnil _ _ E)| |].
    + unfold py_int in H. destruct (digits a); cbn [bind] in H; congruence.
    + unfold py_int in H. destruct (digits a); cbn [bind] in H; [|congruence]. destruct (digits b); cbn [bind] in H; congruence.
  - intros lo hi Hr. apply port_pair_spec in Hr. congruence.
Qed.

(** When it fails: an undefined service, or a port text that is no number or range. *)
Theorem translate_ports_fails t fuel ports protocols e : well_formed t ->
  (forall port, In port ports -> exists T, query_token port = Ok T /\ ~ service_cycle t T) ->
  (List.length t < fuel)%nat ->
  translate_ports fuel t ports protocols = Raise e ->
  exists port T, In port ports /\ query_token port = Ok T /\
    ((e = Exn "UndefinedServiceError" /\ exists U, service_reach t T U /\ ~ has_definition t U) \/
     (e = Exn "ValueError" /\ exists proto p, In proto protocols /\ service_port t T proto p /\
        forall lo hi, ~ range_text p lo hi)).
Proof.
  intros WF HP Hf H. unfold translate_ports in H.
  destruct (mapM _ protocols) as [parts|e'] eqn:HM; cbn [bind] in H; [discriminate|]. injection H as ->.
  apply mapM_raise in HM. destruct HM as [proto [Hproto HM]].
  apply mapM_raise in HM. destruct HM as [port [Hport HM]].
  destruct (HP port Hport) as [T [HT Hc]]. exists port, T. split; [assumption|]. split; [assumption|].
  destruct (get_service_by_proto fuel t port proto) as [l|e'] eqn:E; cbn [bind] in HM.
  - right. apply mapM_raise in HM. destruct HM as [p [Hp HM]]. apply port_pair_raise in HM. destruct HM as [-> HM].
    split; [reflexivity|]. exists proto, p. split; [assumption|]. split; [|assumption].
    destruct (service_by_proto_spec t fuel port T proto l WF HT E) as [_ HI]. apply HI, Hp.
  - injection HM as ->. left. destruct e as [e|].
    + destruct (service_by_proto_exn t fuel port T proto e WF HT E) as [-> HU]. auto.
    + destruct (service_by_proto_fuel t fuel port T proto WF HT Hc Hf E).
Qed.
