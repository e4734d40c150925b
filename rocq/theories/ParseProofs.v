(** Proofs about the parser: it accepts exactly the token sequences of the grammar. *)
From Coq Require Import Lia ZifyBool ZifyNat.
From Verif Require Import SpecParse BaseFacts PortNameProofs GenProofs.
Local Open Scope string_scope.
Local Open Scope list_scope.

(** ** The tables *)

Lemma assoc_self {A} (l : list (string * A)) :
  forallb (fun kv => match assoc (fst kv) l with Some _ => true | None => false end) l = true.
Proof.
  apply forallb_forall. intros [k v] H. cbn. induction l as [|[k' v'] l IH]; [destruct H|].
  cbn. destruct (String.eqb_spec k k'); [reflexivity|]. destruct H as [H|H]; [congruence|auto].
Qed.
Definition shape_eqb (a b : shape) : bool :=
  match a, b with
  | Strings, Strings | Mixed, Mixed | Dscps, Dscps | OneString, OneString | OneInt, OneInt | OneDscp, OneDscp
  | Quoted, Quoted | Ints, Ints | Range, Range | Date, Date | Limit, Limit | Verbatim, Verbatim | Vpn, Vpn
  | Tuples, Tuples | Flex, Flex => true
  | _, _ => false
  end.
Lemma shape_eqb_eq a b : shape_eqb a b = true -> a = b.
Proof. destruct a, b; try discriminate; reflexivity. Qed.
Definition all_shapes : list shape :=
  [Strings; Mixed; Dscps; OneString; OneInt; OneDscp; Quoted; Ints; Range; Date; Limit; Verbatim; Vpn; Tuples; Flex].
Lemma all_shapes_in sh : In sh all_shapes.
Proof. destruct sh; cbn; tauto. Qed.

Lemma table_takes (tbl : list (string * shape)) (g : shape -> list string) :
  forallb (fun kv => str_in (fst kv) (g (snd kv))) tbl = true ->
  forallb (fun sh => forallb (fun k => match assoc k tbl with Some s => shape_eqb s sh | None => false end) (g sh))
    all_shapes = true ->
  forall k sh, assoc k tbl = Some sh <-> In k (g sh).
Proof.
  intros H1 H2 k sh. split; intros H.
  - apply assoc_in in H. pose proof (proj1 (forallb_forall _ _) H1 _ H) as H'. cbn in H'. now apply str_in_spec.
  - pose proof (proj1 (forallb_forall _ _) H2 _ (all_shapes_in sh)) as H'. cbn in H'.
    pose proof (proj1 (forallb_forall _ _) H' _ H) as H''. cbn in H''.
    destruct (assoc k tbl) as [s|]; [|discriminate]. now rewrite (shape_eqb_eq _ _ H'').
Qed.
Lemma term_shape_takes k sh : term_shape k = Some sh <-> In k (takes sh).
Proof. apply table_takes; vm_compute; reflexivity. Qed.
Lemma header_shape_takes k sh : header_shape k = Some sh <-> In k (header_takes sh).
Proof. apply table_takes; vm_compute; reflexivity. Qed.

(** ** Values *)

(** The next token is the one the parser wants, or there is nothing to prove. *)
Ltac tok ts H := destruct ts as [|[] ts]; try discriminate H.

(** What follows a value: the next keyword or the closing brace. *)
Definition ends_value (ts : list token) : Prop :=
  (exists k r, ts = Kw k :: r) \/ exists r, ts = RBrace :: r.

Lemma strings_sound ts : ts = map Str (fst (strings ts)) ++ snd (strings ts).
Proof. induction ts as [|[] ts IH]; cbn; try reflexivity. now rewrite <- IH. Qed.
Lemma strings_complete l rest : ends_value rest -> strings (map Str l ++ rest) = (l, rest).
Proof.
  intros H. induction l as [|s l IH]; cbn; [|now rewrite IH].
  destruct H as [(k & r & ->)|(r & ->)]; reflexivity.
Qed.
Lemma mixed_sound ts : exists v, ts = v ++ snd (mixed ts) /\ Forall2 str_or_int v (fst (mixed ts)).
Proof.
  induction ts as [|t ts IH]; [exists []; split; [reflexivity|constructor]|].
  destruct IH as (v & E & H). destruct t; try (exists []; split; [reflexivity|constructor]).
  - exists (Str s :: v). cbn. split; [now rewrite <- E|]. constructor; [left; reflexivity|exact H].
  - exists (Int s :: v). cbn. split; [now rewrite <- E|]. constructor; [right; reflexivity|exact H].
Qed.
Lemma mixed_complete ts l rest : Forall2 str_or_int ts l -> ends_value rest -> mixed (ts ++ rest) = (l, rest).
Proof.
  intros H He. induction H as [|t s ts l [->| ->] H IH]; cbn; try (now rewrite IH).
  destruct He as [(k & r & ->)|(r & ->)]; reflexivity.
Qed.
Lemma dscps_sound ts : exists v, ts = v ++ snd (dscps ts) /\ Forall2 dscp_or_int v (fst (dscps ts)).
Proof.
  induction ts as [|t ts IH]; [exists []; split; [reflexivity|constructor]|].
  destruct IH as (v & E & H). destruct t; try (exists []; split; [reflexivity|constructor]).
  - exists (Int s :: v). cbn. split; [now rewrite <- E|]. constructor; [right; right; reflexivity|exact H].
  - exists (Dscp s :: v). cbn. split; [now rewrite <- E|]. constructor; [left; reflexivity|exact H].
  - exists (DscpRange s :: v). cbn. split; [now rewrite <- E|]. constructor; [right; left; reflexivity|exact H].
Qed.
Lemma dscps_complete ts l rest : Forall2 dscp_or_int ts l -> ends_value rest -> dscps (ts ++ rest) = (l, rest).
Proof.
  intros H He. induction H as [|t s ts l [->|[->| ->]] H IH]; cbn; try (now rewrite IH).
  destruct He as [(k & r & ->)|(r & ->)]; reflexivity.
Qed.
Lemma integers_sound ts : ts = map Int (fst (integers ts)) ++ snd (integers ts).
Proof. induction ts as [|[] ts IH]; cbn; try reflexivity. now rewrite <- IH. Qed.
Lemma integers_complete l rest : ends_value rest -> integers (map Int l ++ rest) = (l, rest).
Proof.
  intros H. induction l as [|s l IH]; cbn; [|now rewrite IH].
  destruct H as [(k & r & ->)|(r & ->)]; reflexivity.
Qed.
Lemma mapM_numerals ws l : mapM py_int ws = Ok l <-> Forall2 (fun w n => numeral_value w = Some n) ws l.
Proof.
  revert l. induction ws as [|w ws IH]; intros l.
  - split; [intros H; injection H as <-; constructor | intros H; inversion H; reflexivity].
  - cbn. split.
    + intros H. destruct (py_int w) as [n|] eqn:E; [|discriminate]. cbn in H.
      destruct (mapM py_int ws) as [ns|] eqn:E2; [|discriminate]. cbn in H. injection H as <-.
      constructor; [now apply py_int_numeral|]. now apply IH.
    + intros H. inversion H as [|? n ? ns H1 H2]; subst. apply py_int_numeral in H1. apply IH in H2.
      now rewrite H1, H2.
Qed.

Lemma tuples_sound n : forall ts l rest, tuples n ts = Ok (l, rest) ->
  exists v, ts = v ++ rest /\ tuple_list v l.
Proof.
  induction n as [|n IH]; intros ts l rest H; [discriminate|]. cbn [tuples] in H.
  tok ts H. tok ts H. tok ts H. tok ts H. tok ts H. rename ts into r.
  match type of H with (let! q := ?m in _) = _ => destruct m as [[l' rest']|] eqn:E; [|discriminate H] end.
  cbn in H. injection H as <- <-.
  assert (Hone : Ok ([] : list (string * string), r) = Ok (l', rest') ->
    exists v, (LParen :: Str s :: Comma :: Str s0 :: RParen :: r) = v ++ rest' /\ tuple_list v ((s, s0) :: l')).
  { clear. intros E. injection E as <- <-. exists (tuple_tokens (s, s0)). split; [reflexivity|constructor]. }
  destruct r as [|[] r]; try exact (Hone E).
  - destruct r as [|[] r]; try discriminate E. cbn [tl] in E. apply IH in E.
    destruct E as (v & -> & Hv). exists (tuple_tokens (s, s0) ++ Comma :: v). split; [reflexivity|]. now constructor.
  - apply IH in E. destruct E as (v & E & Hv). exists (tuple_tokens (s, s0) ++ v).
    split; [cbn; now rewrite E|]. now constructor.
Qed.
Definition ends_tuples (ts : list token) : Prop := match ts with Comma :: _ | LParen :: _ => False | _ => True end.
Lemma tuple_list_head ts l : tuple_list ts l -> exists r, ts = LParen :: r.
Proof. intros [[a b]|[a b] v q H|[a b] v q H]; eexists; reflexivity. Qed.
Lemma tuples_complete v l rest : tuple_list v l -> ends_tuples rest -> forall n, (List.length l <= n)%nat ->
  tuples n (v ++ rest) = Ok (l, rest).
Proof.
  intros H He. induction H as [[a b]|[a b] v l H IH|[a b] v l H IH]; intros n Hn; cbn in Hn;
    (destruct n as [|n]; [lia|]).
  - cbn. destruct rest as [|[] rest]; try reflexivity; destruct He.
  - specialize (IH n ltac:(lia)). destruct (tuple_list_head _ _ H) as [r ->]. cbn in *. now rewrite IH.
  - specialize (IH n ltac:(lia)). destruct (tuple_list_head _ _ H) as [r ->]. cbn in *. now rewrite IH.
Qed.
Lemma tuple_list_len ts l : tuple_list ts l -> (List.length l <= List.length ts)%nat.
Proof. induction 1 as [p|p v q H IH|p v q H IH]; cbn; rewrite ?app_length; cbn; lia. Qed.

Lemma eqb_pos a b : String.eqb a b = true -> a = b.
Proof. apply String.eqb_eq. Qed.
Lemma check_flex_spec k v : check_flex k v = Ok tt <-> flex_ok k v.
Proof.
  assert (Hb : forall (n m : Z), (m = n - 1)%Z ->
    (let! i := py_int v in if (i <? n)%Z then Ok tt else Raise (Exn "FlexibleMatchError")) = Ok tt <->
    exists i, numeral_value v = Some i /\ (i <= m)%Z).
  { intros n m Hm. split.
    - intros H. destruct (py_int v) as [i|] eqn:E; [|discriminate]. cbn in H. exists i.
      split; [now apply py_int_numeral|]. destruct (i <? n)%Z eqn:L; [lia|discriminate].
    - intros (i & E & L). apply py_int_numeral in E. rewrite E. cbn. destruct (i <? n)%Z eqn:L'; [reflexivity|lia]. }
  unfold check_flex, flex_ok.
  destruct (str_in k _) eqn:Hk.
  2:{ split; [discriminate|]. intros H. exfalso.
      assert (Hin : In k ["byte-offset"; "bit-offset"; "bit-length"; "match-start"; "range"; "range-except";
                     "flexible-range-name"]).
      { destruct H as [H|[[-> _]|(n & _ & [[-> _]|[[-> _]|[-> _]]])]]; [|cbn; tauto..].
        destruct H as [<-|[<-|[<-|[]]]]; cbn; tauto. }
      apply str_in_spec in Hin. congruence. }
  cbn [negb]. apply str_in_spec in Hk. cbv zeta. destruct Hk as [<-|[<-|[<-|[<-|[<-|[<-|[<-|[]]]]]]]];
    cbn [String.eqb Ascii.eqb Bool.eqb].
  - rewrite (Hb 256%Z 255%Z eq_refl). split.
    + intros (i & E & L). right. right. exists i. auto.
    + intros [H|[[H _]|(n & E & [[H _]|[[H _]|[_ L]]])]]; try discriminate H; eauto.
      destruct H as [H|[H|[H|[]]]]; discriminate H.
  - rewrite (Hb 8%Z 7%Z eq_refl). split.
    + intros (i & E & L). right. right. exists i. auto.
    + intros [H|[[H _]|(n & E & [[H _]|[[_ L]|[H _]]])]]; try discriminate H; eauto.
      destruct H as [H|[H|[H|[]]]]; discriminate H.
  - rewrite (Hb 33%Z 32%Z eq_refl). split.
    + intros (i & E & L). right. right. exists i. auto.
    + intros [H|[[H _]|(n & E & [[_ L]|[[H _]|[H _]]])]]; try discriminate H; eauto.
      destruct H as [H|[H|[H|[]]]]; discriminate H.
  - destruct (str_in v ["layer-3"; "layer-4"; "payload"]) eqn:E.
    + split; [|reflexivity]. intros _. right. left. split; [reflexivity|]. now apply str_in_spec.
    + split; [discriminate|]. intros [H|[[_ H]|(n & _ & [[H _]|[[H _]|[H _]]])]]; try discriminate H.
      * destruct H as [H|[H|[H|[]]]]; discriminate H.
      * apply str_in_spec in H. congruence.
  - split; [|reflexivity]. intros _. left. cbn. tauto.
  - split; [|reflexivity]. intros _. left. cbn. tauto.
  - split; [|reflexivity]. intros _. left. cbn. tauto.
Qed.

Lemma ok_pair {A B} (a a' : A) (b b' : B) : Ok (a, b) = Ok (a', b') -> a = a' /\ b = b'.
Proof. intros H. injection H as -> ->. auto. Qed.

Lemma parse_value_sound sh ts v rest : parse_value sh ts = Ok (v, rest) ->
  exists vt, ts = vt ++ rest /\ value_tokens sh vt v.
Proof.
  destruct sh; cbn [parse_value]; intros H.
  - unfold listed in H. destruct (fst (strings ts)) as [|s l] eqn:E; [discriminate|].
    apply ok_pair in H. destruct H as [<- <-]. exists (map Str (s :: l)).
    rewrite <- E. split; [apply strings_sound|]. constructor. rewrite E. discriminate.
  - unfold listed in H. destruct (mixed_sound ts) as (vt & E & Hv).
    destruct (fst (mixed ts)) as [|s l]; [discriminate|].
    apply ok_pair in H. destruct H as [<- <-]. exists vt. split; [exact E|]. constructor; [discriminate|exact Hv].
  - destruct (dscps_sound ts) as (vt & E & Hv). destruct (fst (dscps ts)) as [|s l]; [discriminate|].
    apply ok_pair in H. destruct H as [<- <-]. exists vt. split; [exact E|]. constructor; [discriminate|exact Hv].
  - destruct ts as [|[] ts]; try discriminate H. apply ok_pair in H. destruct H as [<- <-].
    eexists [_]. split; [reflexivity|constructor].
  - destruct ts as [|[] ts]; try discriminate H. apply ok_pair in H. destruct H as [<- <-].
    eexists [_]. split; [reflexivity|constructor].
  - destruct ts as [|[] ts]; try discriminate H; apply ok_pair in H; destruct H as [<- <-];
      eexists [_]; (split; [reflexivity|constructor]).
  - destruct ts as [|[] ts]; try discriminate H. apply ok_pair in H. destruct H as [<- <-].
    eexists [_]. split; [reflexivity|constructor].
  - destruct (mapM py_int (fst (integers ts))) as [l|] eqn:E; [|discriminate]. cbn in H.
    apply ok_pair in H. destruct H as [<- <-]. exists (map Int (fst (integers ts))).
    split; [apply integers_sound|]. constructor. now apply mapM_numerals.
  - destruct ts as [|[] ts]; try discriminate H.
    destruct ts as [|[] ts]; try (apply ok_pair in H; destruct H as [<- <-]; eexists [_]; split; [reflexivity|constructor]).
    destruct ts as [|[] ts]; try discriminate H.
    apply ok_pair in H; destruct H as [<- <-]. eexists [_; _; _]. split; [reflexivity|constructor].
  - tok ts H. tok ts H. tok ts H. tok ts H. tok ts H.
    destruct (py_int s) as [y|] eqn:E1; [|discriminate]. destruct (py_int s0) as [m|] eqn:E2; [|discriminate].
    destruct (py_int s1) as [d|] eqn:E3; [|discriminate]. cbn in H. apply ok_pair in H; destruct H as [<- <-].
    eexists [_; _; _; _; _]. split; [reflexivity|]. constructor; now apply py_int_numeral.
  - tok ts H. tok ts H. tok ts H. apply ok_pair in H; destruct H as [<- <-].
    eexists [_; _; _]. split; [reflexivity|constructor].
  - tok ts H; tok ts H; apply ok_pair in H; destruct H as [<- <-];
      eexists [_; _]; (split; [reflexivity|constructor]).
  - destruct ts as [|[] ts]; try discriminate H.
    destruct ts as [|[] ts]; apply ok_pair in H; destruct H as [<- <-];
      try (eexists [_]; split; [reflexivity|constructor]).
    eexists [_; _]. split; [reflexivity|constructor].
  - destruct ts as [|[] ts]; try discriminate H.
    + destruct (tuples (List.length ts) ts) as [[l r]|] eqn:E; [|discriminate]. cbn in H.
      destruct r as [|[] r]; try discriminate H. apply ok_pair in H; destruct H as [<- <-].
      destruct (tuples_sound _ _ _ _ E) as (vt & -> & Hv). exists (LSquare :: vt ++ [RSquare]).
      split; [cbn; now rewrite <- app_assoc|]. now constructor.
    + destruct (tuples _ _) as [[l r]|] eqn:E in H; [|discriminate]. cbn in H.
      apply ok_pair in H; destruct H as [<- <-].
      destruct (tuples_sound _ _ _ _ E) as (vt & Ev & Hv). exists vt. split; [exact Ev|]. now constructor.
  - assert (G : forall a t b r, t = Hex b \/ t = Int b \/ t = Str b ->
      (let! _ := check_flex a b in
       match r with Str _ :: _ => Raise (Exn "TypeError") | _ => Ok (VPairs [(a, b)], r) end) = Ok (v, rest) ->
      exists vt, Str a :: t :: r = vt ++ rest /\ value_tokens Flex vt v).
    { clear. intros a t b r Ht H. destruct (check_flex a b) as [[]|] eqn:E; [|discriminate]. cbn in H.
      assert (H' : Ok (VPairs [(a, b)], r) = Ok (v, rest)) by (destruct r as [|[] r]; try discriminate H; exact H).
      apply ok_pair in H'. destruct H' as [<- <-]. exists [Str a; t]. split; [reflexivity|].
      constructor; [now apply check_flex_spec|exact Ht]. }
    destruct ts as [|[] ts]; try discriminate H. destruct ts as [|[] ts]; try discriminate H; eapply G; eauto.
Qed.

Lemma parse_value_complete sh vt v rest : value_tokens sh vt v -> ends_value rest ->
  parse_value sh (vt ++ rest) = Ok (v, rest).
Proof.
  intros H He. destruct H as [l Hl|ts l Hl H|ts l Hl H|s|s|s|s|s|ws l H|a|a b|a b c y m d H1 H2 H3|a b|a b|a b|a b|a
    |ts l H|ts l H|k t v Hf Ht]; cbn [parse_value].
  - unfold listed. rewrite strings_complete by exact He. cbn. destruct l; [easy|reflexivity].
  - unfold listed. rewrite (mixed_complete _ l) by assumption. cbn. destruct l; [easy|reflexivity].
  - rewrite (dscps_complete _ l) by assumption. cbn. destruct l; [easy|reflexivity].
  - reflexivity.
  - reflexivity.
  - reflexivity.
  - reflexivity.
  - reflexivity.
  - rewrite integers_complete by exact He. cbn [fst snd]. apply mapM_numerals in H. now rewrite H.
  - destruct He as [(k & r & ->)|(r & ->)]; reflexivity.
  - reflexivity.
  - apply py_int_numeral in H1, H2, H3. cbn. now rewrite H1, H2, H3.
  - reflexivity.
  - reflexivity.
  - reflexivity.
  - reflexivity.
  - destruct He as [(k & r & ->)|(r & ->)]; reflexivity.
  - destruct (tuple_list_head _ _ H) as [r E]. pose proof (tuple_list_len _ _ H) as L.
    assert (G : tuples (List.length (ts ++ rest)) (ts ++ rest) = Ok (l, rest)).
    { apply tuples_complete; [exact H| |rewrite app_length; lia].
      destruct He as [(k & q & ->)|(q & ->)]; exact Logic.I. }
    rewrite E in *. cbn [app] in *. rewrite G. reflexivity.
  - pose proof (tuple_list_len _ _ H) as L.
    assert (G : tuples (List.length ((ts ++ [RSquare]) ++ rest)) (ts ++ RSquare :: rest) = Ok (l, RSquare :: rest)).
    { apply tuples_complete; [exact H|exact Logic.I|rewrite !app_length; lia]. }
    cbn [app]. rewrite <- app_assoc in *. cbn [app] in *. rewrite G. reflexivity.
  - apply check_flex_spec in Hf. destruct Ht as [->|[->| ->]]; cbn [app]; rewrite Hf; cbn [bind];
      (destruct He as [(k' & r & ->)|(r & ->)]; reflexivity).
Qed.

(** ** Statements, terms, filters *)

Lemma stmts_len {grammar st l} : stmts_tokens grammar st l -> (List.length l <= List.length st)%nat.
Proof. induction 1 as [|ts s ts' l Hs H IH]; [cbn; lia|]. destruct Hs. rewrite app_length. cbn. lia. Qed.

Section Stmts.
  Context (shapes : string -> option shape) (grammar : shape -> list string).
  Context (agree : forall k sh, shapes k = Some sh <-> In k (grammar sh)).

  Lemma parse_stmts_sound n : forall ts l rest, parse_stmts n shapes ts = Ok (l, rest) ->
    exists st, ts = st ++ RBrace :: rest /\ stmts_tokens grammar st l.
  Proof.
    induction n as [|n IH]; intros ts l rest H; [discriminate|]. cbn [parse_stmts] in H.
    destruct ts as [|[] ts]; try discriminate H.
    - tok ts H. tok ts H.
      destruct (shapes w) as [sh|] eqn:Es; [|discriminate].
      destruct (parse_value sh ts) as [[v r]|] eqn:Ev; [|discriminate]. cbn [bind fst snd] in H.
      destruct (parse_stmts n shapes r) as [[l' r']|] eqn:El; [|discriminate]. cbn in H.
      apply ok_pair in H. destruct H as [<- <-].
      destruct (IH _ _ _ El) as (st & -> & Hst). destruct (parse_value_sound _ _ _ _ Ev) as (vt & -> & Hv).
      exists ((Kw w :: Colon :: Colon :: vt) ++ st). split; [cbn; now rewrite <- app_assoc|].
      constructor; [|exact Hst]. econstructor; [|exact Hv]. now apply agree.
    - apply ok_pair in H. destruct H as [<- <-]. exists []. split; [reflexivity|constructor].
  Qed.
  Lemma stmts_head st l rest : stmts_tokens grammar st l -> ends_value (st ++ RBrace :: rest).
  Proof.
    intros [|ts s ts' l' Hs H]; [right; eexists; reflexivity|]. destruct Hs. left. cbn. eauto.
  Qed.
  Lemma parse_stmts_complete st l rest : stmts_tokens grammar st l -> forall n, (List.length l < n)%nat ->
    parse_stmts n shapes (st ++ RBrace :: rest) = Ok (l, rest).
  Proof.
    induction 1 as [|ts s ts' l Hs H IH]; intros n Hn; (destruct n as [|n]; [cbn in Hn; lia|]).
    - reflexivity.
    - destruct Hs as [k sh ts v Hk Hv]. apply agree in Hk. cbn [parse_stmts app]. rewrite Hk.
      rewrite <- app_assoc, (parse_value_complete _ _ v) by (try exact Hv; eapply stmts_head; exact H).
      cbn [bind fst snd]. rewrite IH by (cbn in Hn; lia). reflexivity.
  Qed.
End Stmts.

Lemma parse_terms_sound n : forall ts l rest, parse_terms n ts = Ok (l, rest) ->
  exists tt, ts = tt ++ rest /\ terms_tokens tt l.
Proof.
  induction n as [|n IH]; intros ts l rest H; [discriminate|]. cbn [parse_terms] in H.
  assert (G : Ok ([] : list term_text, ts) = Ok (l, rest) -> exists tt, ts = tt ++ rest /\ terms_tokens tt l).
  { intros E. apply ok_pair in E. destruct E as [<- <-]. exists []. split; [reflexivity|constructor]. }
  destruct ts as [|[] ts]; try exact (G H). destruct ts as [|[] ts]; try exact (G H).
  destruct ts as [|[] ts]; try exact (G H). clear G.
  destruct (String.eqb_spec w "term") as [->|Hw].
  - destruct (parse_stmts _ _ ts) as [[b r]|] eqn:E; [|discriminate]. cbn [bind fst snd] in H.
    destruct (parse_terms n r) as [[l' r']|] eqn:E2; [|discriminate]. cbn in H.
    apply ok_pair in H. destruct H as [<- <-]. destruct (IH _ _ _ E2) as (tt & -> & Ht).
    destruct (parse_stmts_sound _ _ term_shape_takes _ _ _ _ E) as (st & -> & Hst).
    exists (Kw "term" :: Str s :: LBrace :: st ++ RBrace :: tt). split; [cbn; now rewrite <- app_assoc|].
    now constructor.
  - apply ok_pair in H. destruct H as [<- <-]. eexists []. split; [reflexivity|constructor].
Qed.
Definition ends_terms (ts : list token) : Prop := ts = [] \/ exists r, ts = Kw "header" :: LBrace :: r.
Lemma parse_terms_complete tt l rest : terms_tokens tt l -> ends_terms rest -> forall n, (List.length l < n)%nat ->
  parse_terms n (tt ++ rest) = Ok (l, rest).
Proof.
  intros H He. induction H as [|name ts l ts' r Hs H IH]; intros n Hn; (destruct n as [|n]; [cbn in Hn; lia|]).
  - destruct He as [->|(r & ->)]; reflexivity.
  - cbn [parse_terms app]. change (String.eqb "term" "term") with true. cbv iota.
    rewrite <- app_assoc. cbn [app].
    rewrite (parse_stmts_complete _ _ term_shape_takes _ l)
      by (try exact Hs; pose proof (stmts_len Hs); rewrite app_length; cbn; lia).
    cbn [bind fst snd]. rewrite IH by (cbn in Hn; lia). reflexivity.
Qed.
Lemma terms_len tt l : terms_tokens tt l -> (List.length l <= List.length tt)%nat.
Proof. induction 1; cbn; [lia|]. rewrite app_length. cbn. lia. Qed.

Lemma parse_filters_sound n : forall ts p, parse_filters n ts = Ok p -> policy_tokens ts p.
Proof.
  induction n as [|n IH]; intros ts p H; cbn [parse_filters] in H.
  - tok ts H; [injection H as <-; constructor|]. tok ts H.
  - tok ts H; [injection H as <-; constructor|]. tok ts H.
    destruct (String.eqb_spec w "header") as [->|Hw]; [|discriminate].
    destruct (parse_stmts _ _ ts) as [[h r]|] eqn:E; [|discriminate]. cbn [bind fst snd] in H.
    destruct (parse_terms _ r) as [[l r']|] eqn:E2; [|discriminate]. cbn [bind fst snd] in H.
    destruct (parse_filters n r') as [q|] eqn:E3; [|discriminate]. cbn in H. injection H as <-.
    destruct (parse_terms_sound _ _ _ _ E2) as (tt & -> & Ht).
    destruct (parse_stmts_sound _ _ header_shape_takes _ _ _ _ E) as (st & -> & Hst).
    constructor; auto.
Qed.
Lemma policy_head ts p : policy_tokens ts p -> ends_terms ts.
Proof. intros [|hs h ts' l q r H1 H2 H3]; [left; reflexivity|right; eauto]. Qed.
Lemma parse_filters_complete ts p : policy_tokens ts p -> forall n, (List.length p <= n)%nat ->
  parse_filters n ts = Ok p.
Proof.
  induction 1 as [|hs h ts l ts' r H1 H2 H3 IH]; intros n Hn.
  - destruct n; reflexivity.
  - destruct n as [|n]; [cbn in Hn; lia|]. cbn [parse_filters]. change (String.eqb "header" "header") with true. cbv iota.
    rewrite (parse_stmts_complete _ _ header_shape_takes _ h)
      by (try exact H1; pose proof (stmts_len H1); rewrite app_length; cbn; lia).
    cbn [bind fst snd]. rewrite (parse_terms_complete _ l)
      by (try exact H2; try (eapply policy_head; exact H3); pose proof (terms_len _ _ H2); rewrite app_length; lia).
    cbn [bind fst snd]. rewrite IH by (cbn in Hn; lia). reflexivity.
Qed.
Lemma policy_len ts p : policy_tokens ts p -> (List.length p <= List.length ts)%nat.
Proof. induction 1; cbn; [lia|]. rewrite !app_length. cbn. rewrite app_length. lia. Qed.

Theorem parse_tokens_spec ts p : parse_tokens ts = Ok p <-> policy_tokens ts p.
Proof.
  split; [apply parse_filters_sound|]. intros H. apply parse_filters_complete; [exact H|now apply policy_len].
Qed.
