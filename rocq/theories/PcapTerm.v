(** The expression of a pcap term says what the term says. *)
From Coq Require Import Lia ZifyBool ZifyNat.
From Verif Require Import SpecPcap BaseFacts PyStrFacts TextProofs CiscoProofs CiscoProofs2 CiscoTerm CiscoAcl GenProofs GenProofs2 IPFacts JuniperTerm PcapText.
Local Open Scope string_scope.
Local Open Scope list_scope.
Local Open Scope Z_scope.

(** ** Words *)

Ltac all_chars c := destruct c as [[] [] [] [] [] [] [] []]; vm_compute; congruence.
Lemma digit_plain c : is_digit c = true -> plain_char c = true.
Proof. all_chars c. Qed.
Lemma addrc_plain c : is_addrc c = true -> plain_char c = true.
Proof. all_chars c. Qed.
Lemma dec_pc n : 0 <= n -> pc_plain (dec n).
Proof. intros H. split; [apply dec_nonempty|]. apply (forall_char_impl is_digit); [exact digit_plain|apply dec_digits, H]. Qed.
Lemma chars_cat f a b : forall_char f a = true -> forall_char f b = true -> forall_char f (a ++ b)%string = true.
Proof. rewrite forall_char_app. intros -> ->. reflexivity. Qed.
Lemma prefix_pc n : valid n -> pc_plain (prefixlen_text n).
Proof.
  intros (Hl & Ha & _). unfold prefixlen_text. split.
  - pose proof (addr_text_nonempty _ _ Ha). destruct (addr_text (nver n) (naddr n)); [congruence|discriminate].
  - apply chars_cat; [apply (forall_char_impl is_addrc); [exact addrc_plain|apply addr_text_chars]|].
    apply (chars_cat plain_char "/"); [reflexivity|]. apply dec_pc. lia.
Qed.
Lemma pc_no_blank w : pc_plain w -> has_char " " w = false.
Proof. intros (_ & H). exact (forall_char_has _ _ " " H eq_refl). Qed.
Lemma lexes3 a b x : pc_plain a -> pc_plain b -> pc_plain x -> lexes (a ++ " " ++ b ++ " " ++ x)%string [a; b; x].
Proof.
  intros A B X. apply (lexes_blank a (b ++ " " ++ x) [a] [b; x]); [apply lexes_word, A|]. apply (lexes_blank b x [b] [x]); apply lexes_word; assumption.
Qed.
Lemma means3 local a b x c : primitive local [a; b; x] = Some c -> primitive local [a] = None -> primitive local [a; b] = None -> ~ In a special -> means local [a; b; x] c.
Proof.
  intros P P1 P2 S. apply means_primitive; [exact P| |exact S]. intros pre post E N1 N2. destruct pre as [|u [|v [|w [|z pre]]]]; [congruence| | | |].
  - injection E as <- _. exact P1.
  - injection E as <- <- _. exact P2.
  - injection E as <- <- <- E. congruence.
  - injection E as _ _ _ E. discriminate E.
Qed.
Lemma means2 local a x c : primitive local [a; x] = Some c -> primitive local [a] = None -> ~ In a special -> means local [a; x] c.
Proof.
  intros P P1 S. apply means_primitive; [exact P| |exact S]. intros pre post E N1 N2. destruct pre as [|u [|v [|w pre]]]; [congruence| | |].
  - injection E as <- _. exact P1.
  - injection E as <- <- E. congruence.
  - injection E as _ _ E. discriminate E.
Qed.
Lemma means1 local a c : primitive local [a] = Some c -> ~ In a special -> means local [a] c.
Proof.
  intros P S. apply means_primitive; [exact P| |exact S]. intros pre post E N1 N2. destruct pre as [|u [|v pre]]; [congruence| |]; injection E as <- E; [congruence|discriminate E].
Qed.
Definition starts_solid (s : string) : Prop := match s with String c _ => is_ws c = false | EmptyString => False end.
Lemma states3 local P a b x c : starts_solid a -> pc_plain a -> pc_plain b -> pc_plain x ->
  primitive local [a; b; x] = Some c -> primitive local [a] = None -> primitive local [a; b] = None -> ~ In a special ->
  states local P (a ++ " " ++ b ++ " " ++ x)%string c.
Proof.
  intros S A B X H H1 H2 Sp. split.
  - replace (a ++ " " ++ b ++ " " ++ x)%string with ((a ++ " " ++ b ++ " ") ++ x)%string by (rewrite !str_app_assoc; reflexivity).
    apply solid_word; [destruct a; [destruct S|exact S]|apply X|apply pc_no_blank, X].
  - exists [a; b; x], c. split; [apply lexes3; assumption|]. split; [apply means3; assumption|]. tauto.
Qed.

Lemma split_none c s : has_char c s = false -> split_char c s = [s].
Proof.
  induction s as [|a s IH]; [reflexivity|]. cbn [has_char split_char]. intros H. apply orb_false_iff in H. destruct H as (H1 & H2).
  rewrite Ascii.eqb_sym in H1. rewrite (IH H2). first [rewrite H1 | rewrite Ascii.eqb_sym, H1]; reflexivity.
Qed.
Lemma split_mid c a b : has_char c a = false -> split_char c (a ++ String c b)%string = a :: split_char c b.
Proof.
  induction a as [|x a IH]; cbn [append has_char split_char].
  - intros _. rewrite Ascii.eqb_refl. reflexivity.
  - intros H. apply orb_false_iff in H. destruct H as (H1 & H2). rewrite (IH H2).
    first [rewrite H1 | rewrite Ascii.eqb_sym, H1]; reflexivity.
Qed.

(** ** Addresses *)

Lemma quad_nocolon n : has_char ":" (int32_to_dotted_quad n) = false.
Proof.
  unfold int32_to_dotted_quad.
  assert (D : forall k, has_char ":" (dec (Z.land (Z.shiftr n k) 255)) = false).
  { intros k. apply (forall_char_has is_digit); [apply dec_digits; apply Z.land_nonneg; right; lia|reflexivity]. }
  cbn [join]. rewrite ?has_char_app. cbn [has_char]. rewrite ?D. reflexivity.
Qed.
Lemma text_colon n : valid n -> has_char ":" (prefixlen_text n) = match nver n with V4 => false | V6 => true end.
Proof.
  intros (Hl & Ha & _). unfold prefixlen_text. rewrite !has_char_app.
  assert (D : has_char ":" (dec (nlen n)) = false) by (apply (forall_char_has is_digit); [apply dec_digits; lia|reflexivity]).
  rewrite D. cbn [has_char]. pose proof (addr_text_value _ _ Ha) as V. destruct (nver n) eqn:E.
  - cbn [addr_text]. rewrite quad_nocolon. reflexivity.
  - destruct (has_char ":" (addr_text V6 (naddr n))) eqn:C; [reflexivity|exfalso]. cbn [ip_value] in V. unfold v6_value in V.
    assert (G : cut_gap (addr_text V6 (naddr n)) = None).
    { clear - C. set (s := addr_text V6 (naddr n)) in *. clearbody s. induction s as [|c s IH]; [reflexivity|]. cbn [has_char] in C. apply orb_false_iff in C. destruct C as (C1 & C2).
      cbn [cut_gap]. rewrite (IH C2). replace (String.prefix "::" (String c s)) with false; [reflexivity|]. symmetry. cbn [String.prefix].
      destruct (ascii_dec ":" c) as [<-|_]; [discriminate C1|reflexivity]. }
    rewrite G in V. unfold groups in V. rewrite split_none in V by exact C. cbn [map all_some] in V.
    destruct (addr_text V6 (naddr n)); [discriminate V|]. destruct (group_value _); discriminate V.
Qed.
Lemma text_not_all n : valid n -> ~ (nver n = V6 /\ nlen n = 0) -> String.eqb (prefixlen_text n) "::/0" = false.
Proof.
  intros V N. apply String.eqb_neq. intros E. pose proof (text_colon n V) as C. rewrite E in C. cbn in C.
  assert (V6' : nver n = V6) by (destruct (nver n); [discriminate C|reflexivity]). apply N. split; [exact V6'|].
  apply (f_equal (after_char "/")) in E. unfold prefixlen_text in E. change (append "/" (dec (nlen n))) with (String "/" (dec (nlen n))) in E.
  rewrite (after_char_app "/" _ _ (addr_text_noslash (nver n) (naddr n))) in E. cbn [after_char] in E. change (Ascii.eqb "/" "/") with true in E. cbv iota in E.
  destruct V as (L & _). apply dec_inj; [lia|lia|]. etransitivity; [exact E|reflexivity].
Qed.
Lemma net_word_covers local n (x : ipaddr) : valid n -> 0 <= snd x < 2 ^ width (fst x) -> (net_word local (prefixlen_text n) x <-> covers n x).
Proof.
  intros V R. unfold net_word. assert (L : String.eqb (prefixlen_text n) "localhost" = false).
  { apply String.eqb_neq. intros E. assert (S : has_char "/" (prefixlen_text n) = true) by (unfold prefixlen_text; rewrite !has_char_app; cbn [has_char]; rewrite orb_true_r; reflexivity).
    rewrite E in S. discriminate S. }
  rewrite L, (text_colon n V). destruct x as (v, x). cbn [fst snd] in *. pose proof (prefix_text_says n x V) as T. unfold covers in *. cbn [fst snd] in *.
  destruct (nver n); split.
  + intros (-> & S). split; [reflexivity|]. apply T in S; [tauto|exact R].
  + intros (<- & S). split; [reflexivity|]. apply T; [exact R|tauto].
  + intros (-> & S). split; [reflexivity|]. apply T in S; [tauto|exact R].
  + intros (<- & S). split; [reflexivity|]. apply T; [exact R|tauto].
Qed.
Lemma net_states local (P : packet -> Prop) n : valid n -> (forall p, P p -> 0 <= snd (p_dst p) < 2 ^ width (fst (p_dst p))) ->
  states local P (append "dst net " (prefixlen_text n)) (fun p => covers n (p_dst p)).
Proof.
  intros V R. apply (states_iff local P _ (fun p => net_word local (prefixlen_text n) (p_dst p))).
  - apply (states3 local P "dst" "net" (prefixlen_text n)); try (split; [discriminate|reflexivity]); try reflexivity; [apply prefix_pc, V|cbn; intuition discriminate].
  - intros p Pp. apply net_word_covers; [exact V|apply R, Pp].
Qed.
Lemma Forall2_states {A} local P (f : A -> string) (C : A -> packet -> Prop) l : (forall x, In x l -> states local P (f x) (C x)) -> Forall2 (states local P) (map f l) (map C l).
Proof. induction l as [|x l IH]; intros H; [constructor|]. cbn [map]. constructor; [apply H; left; reflexivity|apply IH; intros y I; apply H; right; exact I]. Qed.
Lemma states_any {A} local P (f : A -> string) (C : A -> packet -> Prop) l : l <> [] -> (forall x, In x l -> states local P (f x) (C x)) ->
  states local P (join_conditionals (map f l) "or") (fun p => exists x, In x l /\ C x p).
Proof.
  intros N H. apply (states_iff local P _ (fun p => Exists (fun D : packet -> Prop => D p) (map C l))).
  - apply (states_join local P false (map f l) (map C l)); [apply Forall2_states, H|destruct l; [congruence|discriminate]].
  - intros p _. rewrite Exists_exists. split.
    + intros (D & I & X). apply in_map_iff in I. destruct I as (x & <- & I). exists x. auto.
    + intros (x & I & X). exists (C x). split; [apply in_map, I|exact X].
Qed.

(** ** Protocols *)

Lemma vrrp_number : forallb (fun e => negb (snd e =? 112) || String.eqb (fst e) "vrrp") proto_map && str_in "vrrp" (map fst (filter (fun e => snd e =? 112) proto_map)) = true.
Proof. vm_compute. reflexivity. Qed.
Lemma vrrp_only q : In (q, 112) proto_map <-> q = "vrrp".
Proof.
  pose proof vrrp_number as H. apply andb_true_iff in H. destruct H as (H1 & H2). split.
  - intros I. pose proof (proj1 (forallb_forall _ _) H1 _ I) as K. cbv beta in K. cbn [fst snd] in K. change (112 =? 112) with true in K. cbn [negb orb] in K. apply String.eqb_eq, K.
  - intros ->. apply str_in_iff in H2. apply in_map_iff in H2. destruct H2 as ((q, n) & E & I). apply filter_In in I. cbn [fst snd] in *. destruct I as (I & N). assert (n = 112) by lia. subst. exact I.
Qed.
Lemma states2 local P a x c : starts_solid a -> pc_plain a -> pc_plain x -> primitive local [a; x] = Some c -> primitive local [a] = None -> ~ In a special ->
  states local P (a ++ " " ++ x)%string c.
Proof.
  intros S A X H H1 Sp. split.
  - replace (a ++ " " ++ x)%string with ((a ++ " ") ++ x)%string by (rewrite str_app_assoc; reflexivity).
    apply solid_word; [destruct a; [destruct S|exact S]|apply X|apply pc_no_blank, X].
  - exists [a; x], c. split; [apply (lexes_blank a x [a] [x]); apply lexes_word; assumption|]. split; [apply means2; assumption|]. tauto.
Qed.
Lemma states1 local P a c : starts_solid a -> pc_plain a -> primitive local [a] = Some c -> ~ In a special -> states local P a c.
Proof.
  intros S A H Sp. split; [split; [exact S|apply rstrip_blanks_plain, pc_no_blank, A]|]. exists [a], c. split; [apply lexes_word, A|]. split; [apply means1; assumption|]. tauto.
Qed.
Definition proto_text (q : string) : string := match assoc q pcap_protocols with Some s => s | None => "" end.
Lemma proto_states local P q : In q pcap_known -> states local P (proto_text q) (fun p => p_proto p = q).
Proof.
  intros I. repeat destruct I as [<-|I]; try destruct I.
  all: match goal with
  | |- states _ _ (proto_text "icmpv6") _ => apply (states1 local P "icmp6"); [reflexivity|split; [discriminate|reflexivity]|reflexivity|cbn; intuition discriminate]
  | |- states _ _ (proto_text "igrp") _ => apply (states1 local P "igrp"); [reflexivity|split; [discriminate|reflexivity]|reflexivity|cbn; intuition discriminate]
  | |- states _ _ (proto_text "vrrp") _ => apply (states_iff local P _ (fun p => In (p_proto p, 112) proto_map)); [|intros p _; apply vrrp_only];
       apply (states2 local P "proto" "112"); [reflexivity|split; [discriminate|reflexivity]|split; [discriminate|reflexivity]|reflexivity|reflexivity|cbn; intuition discriminate]
  | |- states _ _ (proto_text ?q) _ => apply (states2 local P "proto" (String "\" q)); [reflexivity|split; [discriminate|reflexivity]|split; [discriminate|reflexivity]|reflexivity|reflexivity|cbn; intuition discriminate]
  end.
Qed.
Lemma proto_texts_ok l ts : proto_texts_of l = Ok ts -> ts = map proto_text l.
Proof.
  revert ts. induction l as [|q l IH]; intros ts H; cbn [proto_texts_of] in H; [apply ok_inj in H; subst; reflexivity|]. cbn [map]. unfold proto_text at 1.
  destruct (assoc q pcap_protocols) as [s|]; [|discriminate H]. destruct (proto_texts_of l) as [more|e]; [|discriminate H]. apply ok_inj in H. subst ts. rewrite (IH more eq_refl). reflexivity.
Qed.

(** ** Ports *)

Lemma port_states local P (side : string) (f : packet -> Z) r : 0 <= fst r <= snd r -> (side = "src" /\ f = p_sport \/ side = "dst" /\ f = p_dport) ->
  states local P (port_condition side r) (fun p => In (p_proto p) port_protocols /\ SpecPorts.in_range r (f p)).
Proof.
  destruct r as (lo, hi). intros Hr S. unfold SpecPorts.in_range. cbn [fst snd] in *. unfold port_condition. cbn [fst snd]. destruct (lo =? hi) eqn:E.
  - assert (lo = hi) by lia. subst hi.
    apply (states_iff local P _ (fun p => In (p_proto p) port_protocols /\ f p = lo)); [|intros p _; split; intros (A & B); (split; [exact A|lia])].
    destruct S as [(-> & ->)|(-> & ->)]; [apply (states3 local P "src" "port" (dec lo))|apply (states3 local P "dst" "port" (dec lo))];
      try (split; [discriminate|reflexivity]); try reflexivity; try (apply dec_pc; lia); try (cbn; intuition discriminate);
      cbn [primitive String.eqb Ascii.eqb Bool.eqb andb]; rewrite dec_value by lia; reflexivity.
  - assert (W : pc_plain (dec lo ++ "-" ++ dec hi)%string).
    { split; [pose proof (dec_nonempty lo); destruct (dec lo); [congruence|discriminate]|]. apply chars_cat; [apply dec_pc; lia|]. apply (chars_cat plain_char "-"); [reflexivity|apply dec_pc; lia]. }
    assert (V : map numeral_value (split_char "-" (dec lo ++ "-" ++ dec hi)%string) = [Some lo; Some hi]).
    { assert (D : forall n, 0 <= n -> has_char "-" (dec n) = false) by (intros n N; exact (forall_char_has _ _ "-" (dec_digits n N) eq_refl)).
      change (dec lo ++ "-" ++ dec hi)%string with (dec lo ++ String "-" (dec hi))%string. rewrite split_mid by (apply D; lia). rewrite split_none by (apply D; lia). cbn [map]. rewrite !dec_value by lia. reflexivity. }
    destruct S as [(-> & ->)|(-> & ->)]; [apply (states3 local P "src" "portrange" (dec lo ++ "-" ++ dec hi)%string)|apply (states3 local P "dst" "portrange" (dec lo ++ "-" ++ dec hi)%string)];
      try (split; [discriminate|reflexivity]); try exact W; try reflexivity; try (cbn; intuition discriminate);
      cbn [primitive]; rewrite V; reflexivity.
Qed.
Lemma ports_says local P side f l : (forall r, In r l -> 0 <= fst r <= snd r) -> (side = "src" /\ f = p_sport \/ side = "dst" /\ f = p_dport) ->
  says local P (port_conditions l side) (fun p => l = [] \/ (In (p_proto p) port_protocols /\ in_ports l (f p))).
Proof.
  intros H S. unfold port_conditions. destruct l as [|r l]; [left; split; [left; reflexivity|auto]|]. right.
  apply (states_iff local P _ (fun p => exists r', In r' (r :: l) /\ (In (p_proto p) port_protocols /\ SpecPorts.in_range r' (f p)))).
  - apply states_any; [discriminate|]. intros r' I. apply port_states; [apply H, I|exact S].
  - intros p _. unfold in_ports. split; [intros (r' & I & A & B); right; split; [exact A|exists r'; auto]|intros [X|(A & r' & I & B)]; [discriminate X|exists r'; auto]].
Qed.

(** ** ICMP types *)

Lemma join_solid l op : Forall solid l -> l <> [] -> join_conditionals l op = ("(" ++ join (" " ++ op ++ " ") l ++ ")")%string.
Proof.
  intros F N. destruct (join_texts l op) as (kept & K & E).
  assert (Kl : kept = l).
  { rewrite <- K. clear - F. induction F as [|x l S F IH]; [reflexivity|]. cbn [filter]. destruct (solid_kept x S) as (K1 & K2). rewrite K1, K2. cbn [andb]. rewrite IH. reflexivity. }
  assert (Ml : map strip_blanks l = l) by (clear - F; induction F as [|x l S F IH]; [reflexivity|]; cbn [map]; rewrite (solid_strip x S), IH; reflexivity).
  rewrite E, Kl, Ml. destruct l; [congruence|reflexivity].
Qed.
Definition type_is (n : Z) (p : packet) : Prop := p_proto p = "icmp" /\ type_says V4 (Some n) p.
Definition code_is (n : Z) (p : packet) : Prop := p_proto p = "icmp" /\ p_icmp_code p = n.
Lemma type_means local n : 0 <= n -> means local ["icmp[icmptype]"; "=="; dec n] (type_is n).
Proof.
  intros H. apply means3; [|reflexivity|reflexivity|cbn; intuition discriminate]. unfold primitive. cbn [String.eqb Ascii.eqb Bool.eqb andb]. rewrite dec_value by exact H. reflexivity.
Qed.
Lemma code_means local n : 0 <= n -> means local ["icmp[icmpcode]"; "=="; dec n] (code_is n).
Proof.
  intros H. apply means3; [|reflexivity|reflexivity|cbn; intuition discriminate]. unfold primitive. cbn [String.eqb Ascii.eqb Bool.eqb andb]. rewrite dec_value by exact H. reflexivity.
Qed.
Definition type_words (c x : Z) : list string := ["icmp[icmptype]"; "=="; dec x] ++ "and" :: ["icmp[icmpcode]"; "=="; dec c].
Lemma run_item local c x a stack rest : 0 <= c -> 0 <= x ->
  expr_run local (type_words c x ++ rest) (stack, a, []) = match operand (type_is x) a with
    | Some f => expr_run local ("and" :: ["icmp[icmpcode]"; "=="; dec c] ++ rest) (stack, f, []) | None => expr_run local (type_words c x ++ rest) (stack, a, []) end.
Proof.
  intros Hc Hx. destruct (operand (type_is x) a) as [f|] eqn:O; [|reflexivity]. unfold type_words. rewrite <- app_assoc. rewrite (type_means local x Hx stack a f _ O). reflexivity.
Qed.
Lemma run_types local c : 0 <= c -> forall l, (forall x, In x l -> 0 <= x) -> forall a : packet -> Prop, (forall p, a p -> code_is c p) -> exists a' : packet -> Prop,
  (forall stack rest, expr_run local (flat_map (fun x => "or" :: type_words c x) l ++ rest) (stack, mkFrame (Some a) None false, []) = expr_run local rest (stack, mkFrame (Some a') None false, [])) /\
  forall p, a' p <-> a p \/ (code_is c p /\ exists x, In x l /\ type_is x p).
Proof.
  intros Hc. induction l as [|x l IH]; intros Hl a Ha.
  - exists a. split; [reflexivity|]. intros p. split; [auto|]. intros [X|(_ & x & [] & _)]. exact X.
  - destruct (IH (fun y I => Hl y (or_intror I)) (fun p => (a p \/ type_is x p) /\ code_is c p)) as (a' & R & E); [tauto|]. exists a'. split.
    + intros stack rest. cbn [flat_map app]. change ("or" :: ?u) with (word_of false :: u). rewrite (step_word local false). rewrite <- app_assoc.
      rewrite run_item by (try exact Hc; apply Hl; left; reflexivity). cbn [operand f_acc f_op f_not].
      change ("and" :: ["icmp[icmpcode]"; "=="; dec c] ++ ?u) with (word_of true :: ["icmp[icmpcode]"; "=="; dec c] ++ u). rewrite (step_word local true).
      rewrite (code_means local c Hc stack _ (mkFrame (Some (fun p => (a p \/ type_is x p) /\ code_is c p)) None false)); [apply R|reflexivity].
    + intros p. rewrite E. split.
      * intros [([X|X] & Y)|(Y & y & I & X)]; [left; exact X|right; split; [exact Y|exists x; split; [left; reflexivity|exact X]]|right; split; [exact Y|exists y; split; [right; exact I|exact X]]].
      * intros [X|(Y & y & [<-|I] & X)]; [left; split; [left; exact X|apply Ha, X]|left; split; [right; exact X|exact Y]|right; split; [exact Y|exists y; auto]].
Qed.
Lemma icmp_states local P types codes : types <> [] -> (forall x, In x types -> 0 <= x) -> (codes = [] \/ exists c, codes = [c] /\ 0 <= c) ->
  states local P (icmp_conditions types codes) (fun p => (exists x, In x types /\ type_is x p) /\ (codes = [] \/ exists c, In c codes /\ code_is c p)).
Proof.
  intros N Ht Hc. unfold icmp_conditions. destruct types as [|t0 ts] eqn:Et; [congruence|]. rewrite <- Et in *. replace (some types) with true by (rewrite Et; reflexivity). cbv zeta.
  destruct Hc as [-> |(c & -> & Hc)]; cbn [some].
  - cbn [flat_map]. rewrite app_nil_r.
    apply (states_iff local P _ (fun p => exists x, In x types /\ type_is x p)); [|intros p _; tauto].
    apply (states_any local P (fun x => append "icmp[icmptype] == " (append (dec x) "")) type_is types N). intros x I. rewrite str_app_nil.
    apply (states3 local P "icmp[icmptype]" "==" (dec x)); try (split; [discriminate|reflexivity]); try reflexivity; [apply dec_pc, Ht, I| |cbn; intuition discriminate].
    unfold primitive. cbn [String.eqb Ascii.eqb Bool.eqb andb]. rewrite dec_value by (apply Ht, I). reflexivity.
  - cbn [map flat_map]. rewrite app_nil_r. set (item := fun x => append "icmp[icmptype] == " (append (dec x) (append " and icmp[icmpcode] == " (dec c)))).
    assert (Lx : forall x, In x types -> lexes (item x) (type_words c x)).
    { intros x I. unfold item, type_words.
      change (append "icmp[icmptype] == " (append (dec x) (append " and icmp[icmpcode] == " (dec c))))
        with ("icmp[icmptype]" ++ " " ++ ("==" ++ " " ++ (dec x ++ " " ++ ("and" ++ " " ++ ("icmp[icmpcode]" ++ " " ++ "==" ++ " " ++ dec c)))))%string.
      assert (Q : forall w, w <> "" -> forall_char plain_char w = true -> pc_plain w) by (intros w A B; split; assumption).
      apply (lexes_blank "icmp[icmptype]" _ ["icmp[icmptype]"] ("==" :: dec x :: "and" :: ["icmp[icmpcode]"; "=="; dec c])); [apply lexes_word, Q; [discriminate|reflexivity]|].
      apply (lexes_blank "==" _ ["=="] (dec x :: "and" :: ["icmp[icmpcode]"; "=="; dec c])); [apply lexes_word, Q; [discriminate|reflexivity]|].
      apply (lexes_blank (dec x) _ [dec x] ("and" :: ["icmp[icmpcode]"; "=="; dec c])); [apply lexes_word, dec_pc, Ht, I|].
      apply (lexes_blank "and" _ ["and"] ["icmp[icmpcode]"; "=="; dec c]); [apply lexes_word, Q; [discriminate|reflexivity]|].
      apply lexes3; [apply Q; [discriminate|reflexivity]|apply Q; [discriminate|reflexivity]|apply dec_pc, Hc]. }
    assert (So : Forall solid (map item types)).
    { apply Forall_forall. intros s I. apply in_map_iff in I. destruct I as (x & <- & I). unfold item.
      replace (append "icmp[icmptype] == " (append (dec x) (append " and icmp[icmpcode] == " (dec c)))) with ((append "icmp[icmptype] == " (append (dec x) " and icmp[icmpcode] == ")) ++ dec c)%string
        by (rewrite !str_app_assoc; reflexivity).
      apply solid_word; [reflexivity|apply dec_nonempty|apply pc_no_blank, dec_pc, Hc]. }
    rewrite join_solid; [|exact So|rewrite Et; discriminate]. split; [apply solid_paren|].
    rewrite Et in Ht, Lx. rewrite Et. clear So N.
    destruct (run_types local c Hc ts (fun x I => Ht x (or_intror I)) (fun p => type_is t0 p /\ code_is c p)) as (a' & R & E); [tauto|].
    exists ("(" :: between ["or"] (map (type_words c) (t0 :: ts)) ++ [")"]), a'. split; [|split].
    + apply lexes_paren. apply lexes_join; [apply lexes_word; split; [discriminate|reflexivity]| |discriminate]. clear - Lx. induction (t0 :: ts) as [|x l IH]; [constructor|]. cbn [map].
      constructor; [apply Lx; left; reflexivity|apply IH; intros y I; apply Lx; right; exact I].
    + apply means_group. intros stack rest. cbn [map]. rewrite between_flat. rewrite <- app_assoc. rewrite run_item by (try exact Hc; apply Ht; left; reflexivity).
      cbn [operand empty_frame f_acc f_op f_not].
      change ("and" :: ["icmp[icmpcode]"; "=="; dec c] ++ ?u) with (word_of true :: ["icmp[icmpcode]"; "=="; dec c] ++ u). rewrite (step_word local true).
      rewrite (code_means local c Hc stack _ (mkFrame (Some (fun p => type_is t0 p /\ code_is c p)) None false)) by reflexivity.
      replace (flat_map (fun x => ["or"] ++ x) (map (type_words c) ts)) with (flat_map (fun x => "or" :: type_words c x) ts); [apply R|].
      clear. induction ts as [|x l IH]; [reflexivity|]. cbn [flat_map map]. rewrite IH. reflexivity.
    + intros p _. rewrite E. split.
      * intros [(A & B)|(B & x & I & A)]; (split; [|right; exists c; split; [left; reflexivity|exact B]]); [exists t0; split; [left; reflexivity|exact A]|exists x; split; [right; exact I|exact A]].
      * intros ((x & [<-|I] & A) & [X|(c' & [<-|[]] & B)]); try discriminate X; [left; auto|right; split; [exact B|exists x; auto]].
Qed.

(** ** Flags *)

Definition bit_of (n : string) : Z := match assoc n flag_bits with Some b => b | None => 0 end.
Definition flag_names : list string := map fst flag_bits.
Fixpoint bits (l : list string) : Z := match l with [] => 0 | n :: r => Z.lor (bit_of n) (bits r) end.
Lemma step_name stack ors n : In n flag_names -> value_step (stack, (ors, -1, true)) n = Some (stack, (ors, bit_of n, false)).
Proof. intros I. repeat destruct I as [<-|I]; try destruct I; reflexivity. Qed.
Lemma run_names l : (forall n, In n l -> In n flag_names) -> forall stack ors ands rest,
  exists ors' ands', value_run (flat_map (fun n => ["|"; n]) l ++ rest) (stack, (ors, ands, false)) = value_run rest (stack, (ors', ands', false)) /\
    Z.lor ors' ands' = Z.lor (Z.lor ors ands) (bits l).
Proof.
  induction l as [|n l IH]; intros H stack ors ands rest.
  - exists ors, ands. split; [reflexivity|]. cbn [bits]. rewrite Z.lor_0_r. reflexivity.
  - destruct (IH (fun m I => H m (or_intror I)) stack (Z.lor ors ands) (bit_of n) rest) as (o & a & R & E). exists o, a. split.
    + cbn [flat_map app value_run]. change (value_step (stack, (ors, ands, false)) "|") with (Some (stack, (Z.lor ors ands, -1, true))). cbv iota.
      rewrite step_name by (apply H; left; reflexivity). exact R.
    + rewrite E. cbn [bits]. rewrite <- !Z.lor_assoc. reflexivity.
Qed.
Definition flag_words (l : list string) : list string := "(" :: between ["|"] (map (fun n => [n]) l) ++ [")"].
Lemma between_names l n : between ["|"] (map (fun n => [n]) (n :: l)) = n :: flat_map (fun n => ["|"; n]) l.
Proof. cbn [map]. rewrite between_flat. cbn [app]. f_equal. induction l as [|m l IH]; [reflexivity|]. cbn [map flat_map]. rewrite IH. reflexivity. Qed.
Lemma value_of_flags l : l <> [] -> (forall n, In n l -> In n flag_names) -> value_of (flag_words l) = Some (bits l).
Proof.
  intros N H. destruct l as [|n l]; [congruence|]. unfold value_of, flag_words. rewrite between_names. cbn [value_run app].
  change (value_step ([], (0, -1, true)) "(") with (Some ([(0, -1, true)], (0, -1, true))). cbv iota. rewrite step_name by (apply H; left; reflexivity).
  destruct (run_names l (fun m I => H m (or_intror I)) [(0, -1, true)] 0 (bit_of n) [")"]) as (o & a & R & E). rewrite R. cbn [value_run].
  unfold value_step. cbn [String.eqb Ascii.eqb Bool.eqb option_map]. rewrite Z.lor_0_l, Z.land_m1_l, E, Z.lor_0_l. reflexivity.
Qed.
Lemma value_open w stack f st : w <> ")" -> stack <> [] -> value_step (stack, f) w = Some st -> fst st <> [].
Proof.
  intros W N. destruct f as ((o, a), b). unfold value_step. rewrite (proj2 (String.eqb_neq w ")") W).
  destruct (String.eqb w "("); [destruct b; [|discriminate]; intros H; injection H as <-; discriminate|].
  destruct (String.eqb w "&"); [destruct b; [discriminate|]; intros H; injection H as <-; exact N|].
  destruct (String.eqb w "|"); [destruct b; [discriminate|]; intros H; injection H as <-; exact N|].
  destruct (assoc w flag_bits); [|discriminate]. destruct b; [|discriminate]. cbn [option_map]. intros H; injection H as <-. exact N.
Qed.
Lemma run_open l : ~ In ")" l -> forall stack f st, stack <> [] -> value_run l (stack, f) = Some st -> fst st <> [].
Proof.
  induction l as [|w l IH]; cbn [value_run]; intros H stack f st N R; [injection R as <-; exact N|].
  destruct (value_step (stack, f) w) as [(s', f')|] eqn:E; [|discriminate R].
  apply (IH (fun X => H (or_intror X)) s' f' st); [|exact R]. exact (value_open w stack f (s', f') (fun X => H (or_introl X)) N E).
Qed.
Lemma names_open l : (forall n, In n l -> In n flag_names) -> ~ In ")" (between ["|"] (map (fun n => [n]) l)) /\ ~ In "==" (between ["|"] (map (fun n => [n]) l)).
Proof.
  intros H. assert (W : forall w, In w (between ["|"] (map (fun n => [n]) l)) -> w = "|" \/ In w flag_names).
  { destruct l as [|n l]; [intros w []|]. rewrite between_names. intros w [<-|I]; [right; apply H; left; reflexivity|]. apply in_flat_map in I. destruct I as (m & I & [<-|[<-|[]]]); [auto|].
    right. apply H. right. exact I. }
  split; intros I; apply W in I; destruct I as [X|I]; try discriminate X; repeat destruct I as [X|I]; try discriminate X; destruct I.
Qed.
Lemma prefix_of_app {A} (pre post a b : list A) : pre ++ post = a ++ b -> (exists m, a = pre ++ m /\ post = m ++ b) \/ (exists m, pre = a ++ m /\ b = m ++ post).
Proof.
  revert a. induction pre as [|x pre IH]; intros a E; [left; exists a; auto|]. destruct a as [|y a]; [right; exists (x :: pre); auto|].
  injection E as <- E. destruct (IH a E) as [(m & -> & X)|(m & -> & X)]; [left|right]; exists m; auto.
Qed.
Lemma unfinished_flags l pre post : (forall n, In n l -> In n flag_names) -> flag_words l = pre ++ post -> post <> [] -> value_of pre = None.
Proof.
  intros H E N. unfold value_of. destruct pre as [|w pre]; [reflexivity|]. unfold flag_words in E. injection E as <- E. symmetry in E. apply prefix_of_app in E.
  assert (No : ~ In ")" pre).
  { destruct E as [(m & E & _)|(m & E & E')].
    - destruct (names_open l H) as (X & _). intros I. apply X. rewrite E. apply in_or_app. auto.
    - destruct m as [|x m]; [|destruct m; [|discriminate E']; injection E' as _ <-; congruence]. rewrite app_nil_r in E. subst pre. apply names_open, H. }
  cbn [value_run]. change (value_step ([], (0, -1, true)) "(") with (Some ([(0, -1, true)], (0, -1, true))). cbv iota.
  destruct (value_run pre ([(0, -1, true)], (0, -1, true))) as [(s, f)|] eqn:R; [|reflexivity].
  pose proof (run_open pre No [(0, -1, true)] (0, -1, true) (s, f) ltac:(discriminate) R) as X. cbn [fst] in X. destruct s; [congruence|reflexivity].
Qed.
Lemma split_word_app sep a b : ~ In sep a -> split_at_word sep (a ++ sep :: b) = Some (a, b).
Proof.
  induction a as [|x a IH]; cbn [app split_at_word]; intros N; [rewrite String.eqb_refl; reflexivity|].
  rewrite (proj2 (String.eqb_neq x sep)) by (intros ->; apply N; left; reflexivity). rewrite IH by (intros I; apply N; right; exact I). reflexivity.
Qed.
Lemma split_word_none sep a : ~ In sep a -> split_at_word sep a = None.
Proof.
  induction a as [|x a IH]; cbn [split_at_word]; intros N; [reflexivity|].
  rewrite (proj2 (String.eqb_neq x sep)) by (intros ->; apply N; left; reflexivity). rewrite IH by (intros I; apply N; right; exact I). reflexivity.
Qed.
Lemma flag_words_no l : (forall n, In n l -> In n flag_names) -> ~ In "==" (flag_words l).
Proof. intros H [X|I]; [discriminate X|]. apply in_app_or in I. destruct I as [I|[X|[]]]; [|discriminate X]. exact (proj2 (names_open l H) I). Qed.
Lemma primitive_flags local b r : r <> [] -> (exists x y, b = x :: y :: r) -> primitive local ("tcp[tcpflags]" :: "&" :: b) =
  match split_at_word "==" b with
  | Some (x, y) => match value_of x, value_of y with Some m, Some w => Some (fun p => p_proto p = "tcp" /\ fst (p_src p) = V4 /\ flags_are m w p) | _, _ => None end
  | None => None
  end.
Proof. intros N (x & y & ->). destruct r; [congruence|]. reflexivity. Qed.
Lemma flags_means local l : l <> [] -> (forall n, In n l -> In n flag_names) ->
  means local ("tcp[tcpflags]" :: "&" :: flag_words l ++ "==" :: flag_words l) (fun p => p_proto p = "tcp" /\ fst (p_src p) = V4 /\ flags_are (bits l) (bits l) p).
Proof.
  intros N H. apply means_primitive; [| |cbn; intuition discriminate].
  - destruct l as [|n l]; [congruence|]. unfold flag_words at 1. rewrite between_names. cbn [app].
    rewrite (primitive_flags local _ ((flat_map (fun n0 => ["|"; n0]) l ++ [")"]) ++ "==" :: flag_words (n :: l))); [|destruct l; discriminate|exists "(", n; reflexivity].
    change ("(" :: n :: (flat_map (fun n0 => ["|"; n0]) l ++ [")"]) ++ "==" :: flag_words (n :: l)) with (("(" :: (n :: flat_map (fun n0 => ["|"; n0]) l) ++ [")"]) ++ "==" :: flag_words (n :: l)).
    rewrite <- between_names. change ("(" :: between ["|"] (map (fun n0 => [n0]) (n :: l)) ++ [")"]) with (flag_words (n :: l)).
    rewrite split_word_app by (apply flag_words_no, H). rewrite value_of_flags by assumption. reflexivity.
  - intros pre post E N1 N2. destruct pre as [|u [|v [|w [|z pre]]]]; [congruence| | | |].
    + injection E as <- _. reflexivity.
    + injection E as <- <- _. reflexivity.
    + injection E as <- <- <- _. reflexivity.
    + pose proof (f_equal (@hd string "") E) as Eu. pose proof (f_equal (fun l => hd "" (tl l)) E) as Ev. apply (f_equal (fun l => tl (tl l))) in E. cbn [hd tl app] in Eu, Ev, E. subst u v. assert (D : primitive local ("tcp[tcpflags]" :: "&" :: w :: z :: pre) =
        match split_at_word "==" (w :: z :: pre) with
        | Some (x, y) => match value_of x, value_of y with Some m, Some w => Some (fun p => p_proto p = "tcp" /\ fst (p_src p) = V4 /\ flags_are m w p) | _, _ => None end
        | None => None end).
      { destruct pre as [|z' pre]; [reflexivity|]. apply (primitive_flags local _ (z' :: pre)); [discriminate|eexists _, _; reflexivity]. }
      rewrite D. clear D. change (w :: z :: pre ++ post) with ((w :: z :: pre) ++ post) in E. symmetry in E. apply prefix_of_app in E. destruct E as [(m & E & _)|(m & -> & E)].
      * rewrite split_word_none; [reflexivity|]. intros I. apply (flag_words_no l H). rewrite E. apply in_or_app. left. exact I.
      * destruct m as [|x m]; [rewrite app_nil_r, split_word_none by (apply flag_words_no, H); reflexivity|]. injection E as <- E.
        rewrite split_word_app by (apply flag_words_no, H). rewrite value_of_flags by assumption. rewrite (unfinished_flags l m post H E N2). reflexivity.
Qed.
(** the flag of an option and its place among the bits *)
Definition option_place (o : string) : string * Z := if String.eqb o "tcp-established" then ("ack", 4) else (o, match assoc o packet_flags with Some k => k | None => 0 end).
Lemma option_flag o : In o ("tcp-established" :: map fst packet_flags) -> exists n, option_flags o = [n] /\ In n flag_names /\ In (option_place o) packet_flags /\ bit_of n = 2 ^ snd (option_place o) /\
  (fst (option_place o) = o \/ o = "tcp-established" /\ fst (option_place o) = "ack") /\ 0 <= snd (option_place o).
Proof.
  intros I. repeat destruct I as [<-|I]; try destruct I; eexists; (split; [vm_compute; reflexivity|]); (split; [cbn; auto 10|]); (split; [cbn; auto 10|]); (split; [reflexivity|]); (split; [auto|]); vm_compute; discriminate.
Qed.
Lemma bits_test l k : Z.testbit (bits l) k = true <-> exists n, In n l /\ Z.testbit (bit_of n) k = true.
Proof.
  induction l as [|n l IH]; cbn [bits]; [rewrite Z.testbit_0_l; split; [discriminate|intros (n & [] & _)]|]. rewrite Z.lor_spec, orb_true_iff, IH. split.
  - intros [X|(m & I & X)]; [exists n; split; [left; reflexivity|exact X]|exists m; split; [right; exact I|exact X]].
  - intros (m & [<-|I] & X); [left; exact X|right; exists m; auto].
Qed.
Lemma packet_flags_once : forallb (fun e => forallb (fun e' => negb (snd e =? snd e') || String.eqb (fst e) (fst e')) packet_flags) packet_flags = true.
Proof. reflexivity. Qed.
Lemma packet_flag_once f g k : In (f, k) packet_flags -> In (g, k) packet_flags -> f = g.
Proof.
  intros A B. pose proof (proj1 (forallb_forall _ _) packet_flags_once _ A) as H. cbv beta in H.
  pose proof (proj1 (forallb_forall _ _) H _ B) as K. cbn [fst snd] in K. rewrite Z.eqb_refl in K. cbn [negb orb] in K. apply String.eqb_eq, K.
Qed.
Lemma options_bits l p : (forall o, In o l -> In o ("tcp-established" :: map fst packet_flags)) -> (p_option p "tcp-established" <-> p_option p "ack") ->
  flags_are (bits (flat_map option_flags l)) (bits (flat_map option_flags l)) p <-> forall o, In o l -> p_option p o.
Proof.
  intros H A. unfold flags_are. rewrite Z.land_diag. set (m := bits _).
  assert (T : forall k, Z.testbit m k = true <-> exists o, In o l /\ snd (option_place o) = k).
  { intros k. unfold m. rewrite bits_test. split.
    - intros (n & I & X). apply in_flat_map in I. destruct I as (o & I & J). destruct (option_flag o (H o I)) as (n' & E & _ & _ & B & _ & K). rewrite E in J. destruct J as [<-|[]].
      exists o. split; [exact I|]. rewrite B in X. rewrite Z.pow2_bits_eqb in X by exact K. lia.
    - intros (o & I & <-). destruct (option_flag o (H o I)) as (n & E & _ & _ & B & _ & K). exists n. split; [apply in_flat_map; exists o; rewrite E; split; [exact I|left; reflexivity]|].
      rewrite B. rewrite Z.pow2_bits_eqb by exact K. lia. }
  split.
  - intros (_ & F) o I. destruct (option_flag o (H o I)) as (n & _ & _ & P & _ & Q & _). specialize (F (fst (option_place o)) (snd (option_place o))).
    assert (X : p_option p (fst (option_place o))) by (apply F; [destruct (option_place o); exact P|apply T; exists o; auto|apply T; exists o; auto]).
    destruct Q as [Q|(Q & Q')]; [rewrite Q in X; exact X|]. rewrite Q' in X. rewrite Q. apply A, X.
  - intros F. split; [reflexivity|]. intros f k I X. split; [intros _; exact X|]. intros _. apply T in X. destruct X as (o & J & E). destruct (option_flag o (H o J)) as (n & _ & _ & P & _ & Q & _).
    destruct (option_place o) as (g, k') eqn:Eo. cbn [fst snd] in *. subst k'. rewrite (packet_flag_once f g k I P). specialize (F o J). destruct Q as [-> |(-> & ->)]; [exact F|apply A, F].
Qed.
Lemma flags_states local (P : packet -> Prop) l : l <> [] -> (forall o, In o l -> In o ("tcp-established" :: map fst packet_flags)) -> (forall p, P p -> (p_option p "tcp-established" <-> p_option p "ack") /\ fst (p_src p) = V4) ->
  states local P (flag_conditions l) (fun p => p_proto p = "tcp" /\ forall o, In o l -> p_option p o).
Proof.
  intros N H T. unfold flag_conditions. cbv zeta. set (fl := flat_map option_flags l).
  assert (Hf : forall n, In n fl -> In n flag_names).
  { intros n I. apply in_flat_map in I. destruct I as (o & I & J). destruct (option_flag o (H o I)) as (n' & E & X & _). rewrite E in J. destruct J as [<-|[]]. exact X. }
  assert (Nf : fl <> []).
  { unfold fl. destruct l as [|o l]; [congruence|]. cbn [flat_map]. destruct (option_flag o (H o (or_introl eq_refl))) as (n & E & _). rewrite E. discriminate. }
  replace (some fl) with true by (destruct fl; [congruence|reflexivity]).
  set (J := join "|" fl).
  assert (E : append "(tcp[tcpflags] & (" (append J (append ") == (" (append J "))"))) = ("(" ++ ("tcp[tcpflags]" ++ " " ++ ("&" ++ " " ++ (("(" ++ J ++ ")") ++ " " ++ ("==" ++ " " ++ ("(" ++ J ++ ")"))))) ++ ")")%string).
  { cbn [append]. rewrite !str_app_assoc. cbn [append]. rewrite !str_app_assoc. reflexivity. }
  rewrite E. split; [apply solid_paren|].
  pose proof (flags_means local fl Nf Hf) as M.
  destruct (means_join local true ["tcp[tcpflags]" :: "&" :: flag_words fl ++ "==" :: flag_words fl] [fun p => p_proto p = "tcp" /\ fst (p_src p) = V4 /\ flags_are (bits fl) (bits fl) p]) as (c & M' & C);
    [constructor; [exact M|constructor]|discriminate|].
  assert (LJ : lexes ("(" ++ J ++ ")")%string (flag_words fl)).
  { apply lexes_paren. apply lexes_bars; [|exact Nf]. clear - Hf. induction fl as [|n fl IH]; [constructor|]. cbn [map]. constructor; [|apply IH; intros m I; apply Hf; right; exact I].
    apply lexes_word. pose proof (Hf n (or_introl eq_refl)) as I. repeat destruct I as [<-|I]; try destruct I; (split; [discriminate|reflexivity]). }
  exists ("(" :: ("tcp[tcpflags]" :: "&" :: flag_words fl ++ "==" :: flag_words fl) ++ [")"]), c. split; [|split; [exact M'|]].
  - apply lexes_paren. apply (lexes_blank "tcp[tcpflags]" _ ["tcp[tcpflags]"] ("&" :: flag_words fl ++ "==" :: flag_words fl)); [apply lexes_word; split; [discriminate|reflexivity]|].
    apply (lexes_blank "&" _ ["&"] (flag_words fl ++ "==" :: flag_words fl)); [exact (lexes_sign "" "" [] [] "&" eq_refl eq_refl lexes_nil lexes_nil)|].
    apply lexes_blank; [exact LJ|]. apply (lexes_blank "==" _ ["=="]); [apply lexes_word; split; [discriminate|reflexivity]|exact LJ].
  - intros p Pp. rewrite C, Forall_cons_iff. destruct (T p Pp) as (A & B). pose proof (options_bits l p H A) as O. fold fl in O. rewrite O.
    split; [intros ((X & _ & Y) & _); auto|intros (X & Y); split; [auto|constructor]].
Qed.

(** ** Terms *)

Definition term_says (local : ipaddr -> Prop) (c : pcap_cfg) (t : term) (s : string) : Prop :=
  (s = "" /\ has_condition t /\ forall p, pcap_traffic local c p -> ~ term_matches t p) \/
  (s = String newline "" /\ ~ has_condition t /\ forall p, pcap_traffic local c p -> term_matches t p) \/
  (has_condition t /\ states local (pcap_traffic local c) s (term_matches t)).
Lemma matches_parts t p : only_pcap_conditions t -> t_source_address t = [] -> t_source_address_exclude t = [] -> t_destination_address_exclude t = [] ->
  meant_for "pcap" t -> p_platform p = "pcap" ->
  (term_matches t p <-> (t_destination_address t = [] \/ covered (t_destination_address t) (p_dst p)) /\ (t_protocol t = [] \/ In (p_proto p) (t_protocol t)) /\
     (t_source_port t = [] \/ in_ports (t_source_port t) (p_sport p)) /\ (t_destination_port t = [] \/ in_ports (t_destination_port t) (p_dport p)) /\
     any_or (t_icmp_type t) (eq (p_icmp_type p)) /\ any_or (t_icmp_code t) (eq (p_icmp_code p)) /\ forall o, In o (t_option t) -> p_option p o).
Proof.
  intros On Sa Se De Mf Pl. destruct On as (O1 & O2 & O3 & O4 & O5 & O6 & O7 & O8 & O9 & O10 & O11 & O12 & O13 & O14 & O15 & O16 & O17 & O18 & O19 & O20 & O21 & O22 & O23 & O24 & O25 & O26).
  unfold term_matches, addresses_match, protocols_match, all_ports_match, prefixes_match, options_match, numbers_match, icmp_match, place_matches, link_matches, side_matches, either_matches, ports_match.
  rewrite O1, O2, O3, O4, O5, O6, O7, O8, O9, O10, O11, O12, O13, O14, O15, O16, O17, O18, O19, O20, O21, O22, O23, O24, O25, O26, Sa, Se, De.
  assert (Nc : forall x, ~ covered [] x) by (intros x (n & [] & _)). assert (Nn : forall (P : string -> Prop), none_of [] P) by (intros P a []).
  assert (An : forall (A : Type) (P : A -> Prop), any_or [] P) by (intros A P; left; reflexivity).
  assert (Pm : any_or (t_platform t) (eq (p_platform p)) /\ none_of (t_platform_exclude t) (eq (p_platform p))).
  { rewrite Pl. destruct Mf as (M1 & M2). split; [destruct M1 as [M1|M1]; [left; exact M1|right; exists "pcap"; auto]|intros a I E; subst a; exact (M2 I)]. }
  assert (Ex : any_or (t_protocol t) (eq (p_proto p)) <-> t_protocol t = [] \/ In (p_proto p) (t_protocol t)).
  { unfold any_or. split; (intros [X|X]; [left; exact X|right]); [destruct X as (a & I & E); rewrite E; exact I|exists (p_proto p); auto]. }
  rewrite Ex. cbn [text_range opt_eq]. split.
  - intros ((_ & _ & D & _) & (Pr & _) & (_ & S & D') & _ & (_ & Op & _) & _ & (I1 & I2) & _). tauto.
  - intros (D & Pr & S & D' & I1 & I2 & Op). destruct Pm as (Pm1 & Pm2).
    repeat match goal with |- _ /\ _ => split end; auto; try apply An; try apply Nn; try exact I.
Qed.
Lemma family_filter af l : In af ["inet"; "inet6"; "mixed"] -> l <> [] -> exists l', pcap_addrs af l = Ok (Some l') /\ incl l' l /\
  forall x, In (fst x) (pcap_families af) -> (covered l x <-> covered l' x).
Proof.
  intros Ia N. unfold pcap_addrs. replace (negb (some l)) with false by (destruct l; [congruence|reflexivity]).
  assert (G : forall v k, ver_num v = k -> (forall w, ver_num w = k -> w = v) -> let l' := filter (fun a => ver_num (nver a) =? k) l in incl l' l /\ forall x, In (fst x) [v] -> (covered l x <-> covered l' x)).
  { intros v k Hk Hu. split; [intros n I; apply filter_In in I; tauto|]. intros x [Ex|[]]. split.
    - intros (n & I & C). exists n. split; [|exact C]. apply filter_In. split; [exact I|]. destruct C as (E & _). rewrite E, <- Ex. lia.
    - intros (n & I & C). apply filter_In in I. exists n. tauto. }
  repeat destruct Ia as [<-|Ia]; try destruct Ia; cbn [String.eqb Ascii.eqb Bool.eqb].
  - exists (filter (fun a => ver_num (nver a) =? 4) l). split; [reflexivity|]. apply (G V4); [reflexivity|]. intros []; [reflexivity|discriminate].
  - exists (filter (fun a => ver_num (nver a) =? 6) l). split; [reflexivity|]. apply (G V6); [reflexivity|]. intros []; [discriminate|reflexivity].
  - exists l. split; [reflexivity|]. split; [intros n I; exact I|tauto].
Qed.
Lemma dst_states local (P : packet -> Prop) l : l <> [] -> valid_list l -> (forall n, In n l -> ~ (nver n = V6 /\ nlen n = 0)) ->
  (forall p, P p -> 0 <= snd (p_dst p) < 2 ^ width (fst (p_dst p))) ->
  states local P (addr_conditions (Some l) []) (fun p => covered l (p_dst p)).
Proof.
  intros N V0 Z R. assert (V : forall n, In n l -> valid n) by (apply Forall_forall, V0). clear V0. unfold addr_conditions. cbn [some]. cbv zeta.
  assert (F : filter (fun n => negb (String.eqb (prefixlen_text n) "::/0")) l = l).
  { clear N. induction l as [|n l IH]; [reflexivity|]. cbn [filter]. rewrite (text_not_all n) by (first [apply V|apply Z]; left; reflexivity). cbn [negb]. f_equal. apply IH.
    - intros m I. apply Z. right. exact I.
    - intros m I. apply V. right. exact I. }
  rewrite F. apply (states_iff local P _ (fun p => exists n, In n l /\ covers n (p_dst p))); [|intros p _; unfold covered; tauto].
  apply (states_any local P (fun n => append "dst net " (prefixlen_text n)) (fun n p => covers n (p_dst p)) l N). intros n I. apply net_states; [apply V, I|exact R].
Qed.
Lemma addrs_exact local c (P : packet -> Prop) l : In (pc_af c) ["inet"; "inet6"; "mixed"] -> valid_list l -> (forall n, In n l -> ~ (nver n = V6 /\ nlen n = 0)) ->
  (forall p, P p -> 0 <= snd (p_dst p) < 2 ^ width (fst (p_dst p)) /\ In (fst (p_dst p)) (pcap_families (pc_af c))) ->
  (pcap_addrs (pc_af c) l = Ok (Some []) /\ l <> [] /\ forall p, P p -> ~ covered l (p_dst p)) \/
  (exists o, pcap_addrs (pc_af c) l = Ok o /\ o <> Some [] /\ says local P (addr_conditions o []) (fun p => l = [] \/ covered l (p_dst p)) /\
     (l <> [] -> solid (addr_conditions o [])) /\ (l = [] -> addr_conditions o [] = "")).
Proof.
  intros Ia V Z R. destruct l as [|n0 l0].
  - right. exists None. split; [reflexivity|]. split; [discriminate|]. split; [left; split; [left; reflexivity|auto]|]. split; [congruence|reflexivity].
  - set (l := n0 :: l0) in *. assert (N : l <> []) by discriminate. clearbody l. destruct (family_filter (pc_af c) l Ia N) as (l' & E & Inc & C). destruct l' as [|n l'].
    + left. split; [exact E|]. split; [exact N|]. intros p Pp X. apply C in X; [destruct X as (n & [] & _)|apply R, Pp].
    + right. exists (Some (n :: l')). assert (S : states local P (addr_conditions (Some (n :: l')) []) (fun p => covered (n :: l') (p_dst p))).
      { apply dst_states; [discriminate|apply Forall_forall; intros m I; apply (proj1 (Forall_forall _ _) V), Inc, I|intros m I; apply Z, Inc, I|intros p Pp; apply R, Pp]. }
      split; [exact E|]. split; [discriminate|]. split; [|split; [intros _; apply S|congruence]]. right. apply (states_iff local P _ _ _ S). intros p Pp. rewrite <- C by apply R, Pp. tauto.
Qed.
Definition icmp_pieces (t : term) : res (list string) :=
  if some (t_icmp_type t) then
    if list_str_eqb (t_protocol t) ["icmp"] || list_str_eqb (t_protocol t) ["icmpv6"] then
      let! types := normalize_icmp_types (t_icmp_type t) (t_protocol t) (AfName (if list_str_eqb (t_protocol t) ["icmp"] then "inet" else "inet6")) in
      Ok (if str_in "icmp" (t_protocol t) then [icmp_conditions (match types with Some l => l | None => [] end) (t_icmp_code t)] else [])
    else Raise (Exn "UnsupportedFilterError")
  else Ok [].
Lemma icmp_exact local P af t l : pcap_term_ok af t -> icmp_pieces t = Ok l ->
  Forall2 (says local P) l (map (fun _ => fun p : packet => p_proto p = "icmp" /\ any_or (t_icmp_type t) (eq (p_icmp_type p)) /\ any_or (t_icmp_code t) (eq (p_icmp_code p))) l) /\
  (t_icmp_type t <> [] -> l <> [] /\ t_protocol t = ["icmp"]) /\ (t_icmp_type t = [] -> l = [] /\ t_icmp_code t = []).
Proof.
  intros OK H. unfold icmp_pieces in H. destruct (pt_types _ _ OK) as (T1 & T2 & T3). destruct (t_icmp_type t) as [|ty tys] eqn:Et.
  - cbn [some] in H. apply ok_inj in H. subst l. split; [constructor|]. split; [congruence|]. intros _. split; [reflexivity|]. destruct T3 as [X|(x & _ & _ & X)]; [exact X|congruence].
  - assert (Ep : t_protocol t = ["icmp"]) by (apply T1; discriminate). rewrite Ep in H. cbn [some] in H. change (list_str_eqb ["icmp"] ["icmp"]) with true in H.
    change (str_in "icmp" ["icmp"]) with true in H. cbn [orb] in H.
    destruct (normalize_icmp_types (ty :: tys) ["icmp"] (AfName "inet")) as [r|e] eqn:En; [|discriminate H]. cbn [bind] in H. apply ok_inj in H.
    assert (G : forall p, exists k, r = Some k /\ k <> [] /\ (forall n, In n k -> 0 <= n) /\ ((exists n, In n k /\ In (p_icmp_type p, n) (icmp_types_of V4)) <-> any_or (ty :: tys) (eq (p_icmp_type p)))).
    { intros p. exact (icmp_types_spec (ty :: tys) ["icmp"] (AfName "inet") V4 r p ltac:(discriminate) (or_introl (conj eq_refl eq_refl)) En). }
    destruct r as [k|]; [|destruct (G (mkPacket (V4, 0) (V4, 0) "" 0 0 "" 0 (fun _ => False) (fun _ => False) (fun _ => False) (fun _ => False) (fun _ => False) "" "" 0 0 0 0 "" "" "" "" "" "" "" "" "")) as (k & X & _); discriminate X].
    subst l. cbn [map]. split; [|split; [intros _; split; [discriminate|exact Ep]|discriminate]]. constructor; [|constructor]. right.
    assert (Gk : k <> [] /\ (forall n, In n k -> 0 <= n)).
    { destruct (G (mkPacket (V4, 0) (V4, 0) "" 0 0 "" 0 (fun _ => False) (fun _ => False) (fun _ => False) (fun _ => False) (fun _ => False) "" "" 0 0 0 0 "" "" "" "" "" "" "" "" "")) as (k' & X & A & B & _). injection X as <-. auto. }
    eapply states_iff; [apply icmp_states; [apply Gk|apply Gk|destruct T3 as [X|(x & X & Y & _)]; [left; exact X|right; exists x; auto]]|].
    intros p _. cbn beta. destruct (G p) as (k' & X & _ & _ & B). injection X as <-. rewrite <- B. unfold type_is, code_is, type_says, any_or. split.
    + intros ((x & I & Q & W) & C). split; [exact Q|]. split; [exists x; auto|]. destruct C as [C|(y & J & _ & C)]; [left; exact C|right; exists y; auto].
    + intros (Q & (x & I & W) & C). split; [exists x; auto|]. destruct C as [C|(y & J & C)]; [left; exact C|right; exists y; auto].
Qed.
Lemma protos_exact local P l : (forall q, In q l -> In q pcap_known) ->
  says local P (join_conditionals (map proto_text l) "or") (fun p => l = [] \/ In (p_proto p) l) /\
  (l <> [] -> solid (join_conditionals (map proto_text l) "or")) /\ (l = [] -> join_conditionals (map proto_text l) "or" = "").
Proof.
  intros H. destruct l as [|q qs]; [split; [left; split; [left; reflexivity|auto]|split; [congruence|reflexivity]]|]. set (l := q :: qs) in *. assert (N : l <> []) by discriminate. clearbody l.
  assert (S : states local P (join_conditionals (map proto_text l) "or") (fun p => exists x, In x l /\ p_proto p = x)).
  { apply (states_any local P proto_text (fun x p => p_proto p = x)); [exact N|]. intros x I. apply proto_states, H, I. }
  split; [|split; [intros _; apply S|congruence]]. right. apply (states_iff local P _ _ _ S). intros p _. split; [intros (x & I & E); right; rewrite E; exact I|intros [X|X]; [congruence|exists (p_proto p); auto]].
Qed.
Lemma exists_solid_app l x r : solid x -> Exists solid (l ++ x :: r).
Proof. intros S. apply Exists_exists. exists x. split; [apply in_or_app; right; left; reflexivity|exact S]. Qed.
Lemma term_exact local c t s : In (pc_af c) ["inet"; "inet6"; "mixed"] -> pcap_term_ok (pc_af c) t -> pcap_term c t = Ok s -> term_says local c t s.
Proof.
  intros Ia OK H. unfold pcap_term in H. change (if some (t_icmp_type t) then _ else Ok []) with (icmp_pieces t) in H.
  rewrite (proj2 (active_on_spec "pcap" t) (pt_meant _ _ OK)) in H. cbn [negb] in H.
  destruct (t_action t) as [|a acts]; [discriminate H|]. destruct (str_in a ["accept"; "deny"; "reject"; "next"]); [|discriminate H]. cbn [negb] in H.
  destruct (pt_src _ _ OK) as (Sa & Se). destruct (pt_dst _ _ OK) as (Dv & De & D0). rewrite Sa, Se, De in H. change (pcap_addrs (pc_af c) []) with (@Ok (option (list net)) None) in H. cbn [bind] in H.
  set (P := pcap_traffic local c).
  assert (Tr : forall p, P p -> (0 <= snd (p_dst p) < 2 ^ width (fst (p_dst p)) /\ In (fst (p_dst p)) (pcap_families (pc_af c))) /\ In (fst (p_src p)) (pcap_families (pc_af c)) /\
    (p_option p "tcp-established" <-> p_option p "ack") /\ p_platform p = "pcap").
  { intros p ((v & I & E1 & E2 & R) & _ & _ & A & Pl). rewrite E1, E2. auto. }
  assert (Mp : forall p, P p -> _) by (intros p Pp; exact (matches_parts t p (pt_only _ _ OK) Sa Se De (pt_meant _ _ OK) (proj2 (proj2 (proj2 (Tr p Pp)))))).
  destruct (addrs_exact local c P (t_destination_address t) Ia Dv D0 (fun p Pp => proj1 (Tr p Pp))) as [(Ed & Nd & Cd)|(o & Ed & No & Sd & Sd1 & Sd2)].
  { rewrite Ed in H. cbn [bind] in H. apply ok_inj in H. left. split; [symmetry; exact H|]. split; [left; exact Nd|]. intros p Pp M. apply (Mp p Pp) in M. destruct M as ([X|X] & _); [congruence|exact (Cd p Pp X)]. }
  rewrite Ed in H. cbn [bind] in H.
  assert (H' : (if some (t_protocol_except t) then Raise (Exn "UnsupportedFilterError")
    else let! protos := proto_conditions (t_protocol t) in let! icmp := icmp_pieces t in
      let cond := join_conditionals (["";  addr_conditions o []; protos; port_conditions (t_source_port t) "src"; port_conditions (t_destination_port t) "dst"]
                       ++ icmp ++ (if str_in "tcp" (t_protocol t) then [flag_conditions (t_option t)] else [])) "and" in
      let cond := if nonempty cond then if String.eqb (pc_direction c) "in" then join_conditionals ["dst net localhost"; cond] "and"
                        else if String.eqb (pc_direction c) "out" then join_conditionals ["src net localhost"; cond] "and" else cond else cond in
      Ok (append cond (String newline ""))) = Ok s).
  { destruct o as [[|n l]|]; [congruence|exact H|exact H]. }
  clear H. rename H' into H. assert (Ox : t_protocol_except t = []) by apply (pt_only _ _ OK). rewrite Ox in H. cbn [some] in H.
  unfold proto_conditions in H. destruct (proto_texts_of (t_protocol t)) as [pts|e] eqn:Ep; [|discriminate H]. cbn [bind] in H. apply proto_texts_ok in Ep. subst pts.
  destruct (icmp_pieces t) as [icmp|e] eqn:Ei; [|discriminate H]. cbn [bind] in H. cbv zeta in H.
  destruct (icmp_exact local P (pc_af c) t icmp OK Ei) as (Si & Si1 & Si2).
  set (flags := if str_in "tcp" (t_protocol t) then [flag_conditions (t_option t)] else []) in *.
  set (protos := join_conditionals (map proto_text (t_protocol t)) "or") in *.
  assert (Sp : says local P protos (fun p => t_protocol t = [] \/ In (p_proto p) (t_protocol t)) /\ (t_protocol t <> [] -> solid protos) /\ (t_protocol t = [] -> protos = "")).
  { apply protos_exact, (pt_protocol _ _ OK). }
  destruct Sp as (Sp & Sp1 & Sp2).
  assert (Po : forall r, In r (t_source_port t ++ t_destination_port t) -> _) by exact (pt_ports _ _ OK).
  assert (Ss : says local P (port_conditions (t_source_port t) "src") (fun p => t_source_port t = [] \/ (In (p_proto p) port_protocols /\ in_ports (t_source_port t) (p_sport p)))).
  { apply ports_says; [|auto]. intros r I. apply Po, in_or_app. auto. }
  assert (St : says local P (port_conditions (t_destination_port t) "dst") (fun p => t_destination_port t = [] \/ (In (p_proto p) port_protocols /\ in_ports (t_destination_port t) (p_dport p)))).
  { apply ports_says; [|auto]. intros r I. apply Po, in_or_app. auto. }
  assert (Sf : Forall2 (says local P) flags (map (fun _ => fun p : packet => t_option t = [] \/ (p_proto p = "tcp" /\ forall x, In x (t_option t) -> p_option p x)) flags) /\
    (t_option t <> [] -> flags <> [] /\ t_protocol t = ["tcp"])).
  { unfold flags. destruct (t_option t) as [|x xs] eqn:Eo.
    - split; [|congruence]. destruct (str_in "tcp" (t_protocol t)); cbn [map]; [|constructor]. constructor; [|constructor]. left. split; [left; reflexivity|auto].
    - rewrite <- Eo. assert (No' : t_option t <> []) by congruence. destruct (pt_option _ _ OK No') as (Q1 & Q2 & Q3). rewrite Q1. change (str_in "tcp" ["tcp"]) with true. cbv iota. cbn [map].
      split; [|intros _; split; [discriminate|reflexivity]]. constructor; [|constructor]. right.
      eapply states_iff; [apply flags_states; [exact No'|exact Q3|]|].
      + intros p Pp. destruct (Tr p Pp) as (_ & X & Y & _). rewrite Q2 in X. destruct X as [X|[]]. auto.
      + intros p _. cbn beta. split; [auto|intros [X|X]; [congruence|exact X]]. }
  destruct Sf as (Sf & Sf1).
  set (L := ["";  addr_conditions o []; protos; port_conditions (t_source_port t) "src"; port_conditions (t_destination_port t) "dst"] ++ icmp ++ flags) in *.
  assert (FL : exists Cs, Forall2 (says local P) L Cs /\ forall p, P p -> Forall (fun C : packet -> Prop => C p) Cs <-> term_matches t p).
  { eexists. split.
    - unfold L. apply Forall2_app; [|apply Forall2_app; [exact Si|exact Sf]].
      constructor; [left; split; [left; reflexivity|intros p _; exact (Logic.I : (fun _ : packet => True) p)]|]. constructor; [exact Sd|]. constructor; [exact Sp|]. constructor; [exact Ss|]. constructor; [exact St|constructor].
    - intros p Pp. rewrite (Mp p Pp). rewrite !Forall_app, !Forall_cons_iff, !Forall_forall.
      assert (Ki : (forall C : packet -> Prop, In C (map (fun _ : string => fun p : packet => p_proto p = "icmp" /\ any_or (t_icmp_type t) (eq (p_icmp_type p)) /\ any_or (t_icmp_code t) (eq (p_icmp_code p))) icmp) -> C p) <->
        (icmp = [] \/ (p_proto p = "icmp" /\ any_or (t_icmp_type t) (eq (p_icmp_type p)) /\ any_or (t_icmp_code t) (eq (p_icmp_code p))))).
      { clear. destruct icmp as [|x l]; [cbn [map]; split; [auto|intros _ C []]|]. split; [intros X; right; exact (X _ (or_introl eq_refl))|].
        intros [X|X]; [discriminate X|]. intros C I. apply in_map_iff in I. destruct I as (y & <- & _). exact X. }
      assert (Kf : (forall C : packet -> Prop, In C (map (fun _ : string => fun p : packet => t_option t = [] \/ (p_proto p = "tcp" /\ forall x, In x (t_option t) -> p_option p x)) flags) -> C p) <->
        (flags = [] \/ (t_option t = [] \/ (p_proto p = "tcp" /\ forall x, In x (t_option t) -> p_option p x)))).
      { clear. destruct flags as [|x l]; [cbn [map]; split; [auto|intros _ C []]|]. split; [intros X; right; exact (X _ (or_introl eq_refl))|].
        intros [X|X]; [discriminate X|]. intros C I. apply in_map_iff in I. destruct I as (y & <- & _). exact X. }
      rewrite Ki, Kf. clear Ki Kf.
      assert (Q : forall r, In r (t_source_port t ++ t_destination_port t) -> (t_protocol t = [] \/ In (p_proto p) (t_protocol t)) -> In (p_proto p) port_protocols).
      { intros r I X. destruct (Po r I) as (_ & Np & Q). destruct X as [X|X]; [congruence|]. destruct (Q _ X) as [E|[E|[]]]; rewrite <- E; cbn; auto. }
      assert (Q1 : t_source_port t = [] \/ exists r, In r (t_source_port t ++ t_destination_port t)) by (destruct (t_source_port t) as [|r l]; [auto|right; exists r; left; reflexivity]).
      assert (Q2 : t_destination_port t = [] \/ exists r, In r (t_source_port t ++ t_destination_port t)) by (destruct (t_destination_port t) as [|r l]; [auto|right; exists r; apply in_or_app; right; left; reflexivity]).
      assert (Q3 : forall x y : Prop, (t_icmp_type t = [] \/ t_icmp_type t <> [])) by (intros; destruct (t_icmp_type t); [auto|right; discriminate]).
      split.
      + intros ((_ & A & B & C & D & _) & E & F).
        assert (F' : forall x, In x (t_option t) -> p_option p x).
        { destruct (t_option t) as [|x0 xs]; [intros x []|]. destruct (Sf1 ltac:(discriminate)) as (Nf & _). destruct F as [F|[F|(_ & F)]]; [congruence|discriminate F|exact F]. }
        assert (E' : any_or (t_icmp_type t) (eq (p_icmp_type p)) /\ any_or (t_icmp_code t) (eq (p_icmp_code p))).
        { destruct (Q3 True True) as [X|X]; [destruct (Si2 X) as (_ & Y); split; left; assumption|]. destruct (Si1 X) as (Y & _). destruct E as [E|(_ & E)]; [exfalso; exact (Y E)|exact E]. }
        destruct E' as (E1 & E2).
        split; [exact A|]. split; [exact B|]. split; [destruct C as [C|(_ & C)]; auto|]. split; [destruct D as [D|(_ & D)]; auto|]. split; [exact E1|]. split; [exact E2|exact F'].
      + intros (A & B & C & D & E1 & E2 & F).
        assert (C' : t_source_port t = [] \/ (In (p_proto p) port_protocols /\ in_ports (t_source_port t) (p_sport p))).
        { destruct Q1 as [Q1|(r & I)]; [left; exact Q1|]. destruct C as [C|C]; [left; exact C|right; split; [exact (Q r I B)|exact C]]. }
        assert (D' : t_destination_port t = [] \/ (In (p_proto p) port_protocols /\ in_ports (t_destination_port t) (p_dport p))).
        { destruct Q2 as [Q2|(r & I)]; [left; exact Q2|]. destruct D as [D|D]; [left; exact D|right; split; [exact (Q r I B)|exact D]]. }
        assert (E' : icmp = [] \/ (p_proto p = "icmp" /\ any_or (t_icmp_type t) (eq (p_icmp_type p)) /\ any_or (t_icmp_code t) (eq (p_icmp_code p)))).
        { destruct (Q3 True True) as [X|X]; [left; apply Si2, X|]. right. destruct (Si1 X) as (_ & Y). rewrite Y in B. destruct B as [B|[B|[]]]; [discriminate B|]. auto. }
        assert (F' : flags = [] \/ (t_option t = [] \/ (p_proto p = "tcp" /\ forall x, In x (t_option t) -> p_option p x))).
        { right. destruct (t_option t) as [|x0 xs]; [auto|]. right. destruct (Sf1 ltac:(discriminate)) as (_ & Y). rewrite Y in B. destruct B as [B|[B|[]]]; [discriminate B|]. auto. }
        split; [|split; [exact E'|exact F']]. split; [exact Logic.I|]. split; [exact A|]. split; [exact B|]. split; [exact C'|]. split; [exact D'|]. intros x []. }
  destruct FL as (Cs & FL & Mt). destruct (says_and local P L Cs FL) as (_ & St1 & St2).
  set (cond := join_conditionals L "and") in *.
  assert (Hc : (has_condition t /\ states local P cond (term_matches t)) \/ (~ has_condition t /\ cond = "" /\ forall p, P p -> term_matches t p)).
  { destruct (t_destination_address t) as [|n l] eqn:Edst; [destruct (t_protocol t) as [|q qs] eqn:Epr|].
    - right. split; [unfold has_condition; rewrite Edst, Epr; intros [X|X]; congruence|].
      assert (X1 : t_source_port t = [] /\ t_destination_port t = []).
      { split; [destruct (t_source_port t) as [|r l] eqn:Er|destruct (t_destination_port t) as [|r l] eqn:Er]; try reflexivity; exfalso;
          (assert (I : In r (t_source_port t ++ t_destination_port t)) by (apply in_or_app; rewrite ?Er; first [left; left; reflexivity|right; left; reflexivity])); rewrite Er in I; destruct (Po r I) as (_ & X & _); congruence. }
      assert (X2 : t_option t = []) by (destruct (t_option t) as [|x xs]; [reflexivity|]; destruct (Sf1 ltac:(discriminate)) as (_ & X); congruence).
      assert (X3 : t_icmp_type t = []) by (destruct (t_icmp_type t) as [|x xs]; [reflexivity|]; destruct (Si1 ltac:(discriminate)) as (_ & X); congruence).
      destruct X1 as (X1 & X1'). destruct (Si2 X3) as (X4 & X5). split.
      + apply St2. unfold L. rewrite X4. rewrite (Sd2 eq_refl), (Sp2 eq_refl), X1, X1'. intros x I. left. cbn [app In port_conditions] in I.
        assert (Ef : flags = []) by reflexivity. rewrite Ef in I. cbn [In] in I. repeat (destruct I as [I|I]; [symmetry; exact I|]). destruct I.
      + intros p Pp. apply (Mp p Pp). rewrite X1, X1', X2, X3, X5. repeat split; auto; try (left; reflexivity). intros x [].
    - left. split; [right; rewrite Epr; discriminate|]. apply (states_iff local P _ (fun p => Forall (fun C : packet -> Prop => C p) Cs)); [|exact Mt]. apply St1.
      apply (exists_solid_app ["";  addr_conditions o []] protos). apply Sp1. discriminate.
    - left. split; [left; rewrite Edst; discriminate|]. apply (states_iff local P _ (fun p => Forall (fun C : packet -> Prop => C p) Cs)); [|exact Mt]. apply St1.
      apply (exists_solid_app [""] (addr_conditions o [])). apply Sd1. discriminate. }
  apply ok_inj in H. destruct Hc as [(Hc & S)|(Hc & Ec & Al)].
  - right. right. split; [exact Hc|]. rewrite (proj1 (solid_kept cond (proj1 S))) in H.
    assert (W : forall x y, states local P x y -> states local P (append x (String newline "")) y).
    { intros x y (A & ts & cc & B & C & D). split; [apply solid_newline, A|]. exists ts, cc. split; [apply lexes_newline, B|]. auto. }
    assert (J : forall w (f : packet -> ipaddr), In (w, f) [("dst", p_dst); ("src", p_src)] -> (forall p, P p -> local (f p)) ->
      states local P (join_conditionals [append w " net localhost"; cond] "and") (term_matches t)).
    { intros w f I Lf. assert (Sl : states local P (append w " net localhost") (fun p => local (f p))).
      { destruct I as [E|[E|[]]]; apply pair_equal_spec in E; destruct E as (<- & <-).
        - apply (states3 local P "dst" "net" "localhost"); try (split; [discriminate|reflexivity]); try reflexivity; cbn; intuition discriminate.
        - apply (states3 local P "src" "net" "localhost"); try (split; [discriminate|reflexivity]); try reflexivity; cbn; intuition discriminate. }
      eapply states_iff; [apply (states_join local P true [append w " net localhost"; cond] [fun p => local (f p); term_matches t]); [constructor; [exact Sl|constructor; [exact S|constructor]]|discriminate]|].
      intros p Pp. cbn beta iota. rewrite !Forall_cons_iff. specialize (Lf p Pp). split; [intros (_ & M & _); exact M|intros M; split; [exact Lf|split; [exact M|constructor]]]. }
    subst s. apply W. destruct (String.eqb (pc_direction c) "in") eqn:Di.
    + apply (J "dst" p_dst); [left; reflexivity|]. apply String.eqb_eq in Di. intros p (_ & X & _). apply X, Di.
    + destruct (String.eqb (pc_direction c) "out") eqn:Do; [|exact S]. apply (J "src" p_src); [right; left; reflexivity|]. apply String.eqb_eq in Do. intros p (_ & _ & X & _). apply X, Do.
  - right. left. rewrite Ec in H. cbn [nonempty append] in H. split; [symmetry; exact H|]. split; [exact Hc|exact Al].
Qed.
