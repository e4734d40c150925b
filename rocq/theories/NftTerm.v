(** The rules of an nftables term say what the term says. *)
From Coq Require Import Lia ZifyBool ZifyNat.
From Verif Require Import SpecNft BaseFacts PyStrFacts TextProofs CiscoProofs CiscoProofs2 CiscoTerm CiscoAcl CiscoEst GenProofs GenProofs2 IPFacts ExcludeProofs NftText.
Local Open Scope string_scope.
Local Open Scope list_scope.
Local Open Scope Z_scope.

(** ** Values *)

Lemma word_char_of (f : ascii -> bool) s : (forall c, f c = true -> word_char c = true) -> forall_char f s = true -> forall_char word_char s = true.
Proof. intros I. apply forall_char_impl, I. Qed.
Ltac all_chars c := destruct c as [[] [] [] [] [] [] [] []]; vm_compute; congruence.
Lemma addrc_word c : is_addrc c = true -> word_char c = true.
Proof. all_chars c. Qed.
Lemma digit_word c : is_digit c = true -> word_char c = true.
Proof. all_chars c. Qed.
Lemma name_word c : name_char c = true -> word_char c = true.
Proof. all_chars c. Qed.
Lemma dec_word n : 0 <= n -> plain_word (dec n).
Proof. intros H. split; [apply dec_nonempty|]. apply (word_char_of is_digit); [exact digit_word|apply dec_digits, H]. Qed.
Lemma forall_char_cat f a b : forall_char f a = true -> forall_char f b = true -> forall_char f (a ++ b)%string = true.
Proof. induction a as [|c a IH]; cbn [append forall_char]; [auto|]. rewrite !andb_true_iff. intros (A & B) C. auto. Qed.
Lemma prefix_word n : valid n -> plain_word (prefixlen_text n).
Proof.
  intros (Hl & Ha & _). unfold prefixlen_text. split.
  - pose proof (addr_text_nonempty _ _ Ha). destruct (addr_text (nver n) (naddr n)); [congruence|discriminate].
  - apply forall_char_cat; [apply (word_char_of is_addrc); [exact addrc_word|apply addr_text_chars]|].
    apply (forall_char_cat word_char "/"); [reflexivity|]. apply dec_word. lia.
Qed.
Definition port_good (r : prange) : Prop := 0 <= fst r <= snd r /\ snd r <= 65535.
Lemma port_word r : port_good r -> plain_word (nft_port r).
Proof.
  intros (A & B). unfold nft_port. destruct (fst r =? snd r); [apply dec_word; lia|]. split.
  - pose proof (dec_nonempty (fst r)). destruct (dec (fst r)); [congruence|discriminate].
  - apply forall_char_cat; [apply dec_word; lia|]. apply (forall_char_cat word_char "-"); [reflexivity|apply dec_word; lia].
Qed.
Lemma split_char_none c s : has_char c s = false -> split_char c s = [s].
Proof.
  induction s as [|a s IH]; [reflexivity|]. cbn [has_char split_char]. intros H. apply orb_false_iff in H. destruct H as (H1 & H2).
  rewrite Ascii.eqb_sym in H1. rewrite (IH H2). first [rewrite H1 | rewrite Ascii.eqb_sym, H1]; reflexivity.
Qed.
Lemma split_char_mid c a b : has_char c a = false -> split_char c (a ++ String c b)%string = a :: split_char c b.
Proof.
  induction a as [|x a IH]; cbn [append has_char split_char].
  - intros _. rewrite Ascii.eqb_refl. reflexivity.
  - intros H. apply orb_false_iff in H. destruct H as (H1 & H2). rewrite (IH H2).
    first [rewrite H1 | rewrite Ascii.eqb_sym, H1]; reflexivity.
Qed.
Lemma dec_has n c : 0 <= n -> is_digit c = false -> has_char c (dec n) = false.
Proof. intros H D. exact (forall_char_has _ _ c (dec_digits n H) D). Qed.
Lemma port_range r : port_good r -> nft_range (nft_port r) = Some r.
Proof.
  destruct r as (lo, hi). intros (A & B). cbn [fst snd] in *. unfold nft_range, nft_port. cbn [fst snd]. destruct (lo =? hi) eqn:E.
  - rewrite split_char_none by (apply dec_has; [lia|reflexivity]). cbn [map]. rewrite dec_value by lia.
    assert (X : (lo <=? 65535) = true) by lia. rewrite X. assert (lo = hi) by lia. subst. reflexivity.
  - cbn [append]. rewrite split_char_mid by (apply dec_has; [lia|reflexivity]).
    rewrite split_char_none by (apply dec_has; [lia|reflexivity]). cbn [map]. rewrite !dec_value by lia.
    assert (X : ((lo <=? hi) && (hi <=? 65535)) = true) by lia. rewrite X. reflexivity.
Qed.
Lemma all_some_map {A B C} (f : A -> option B) (g : C -> A) (h : C -> B) l : (forall x, In x l -> f (g x) = Some (h x)) ->
  all_some (map f (map g l)) = Some (map h l).
Proof.
  induction l as [|x l IH]; [reflexivity|]. intros H. cbn [map all_some]. rewrite (H x) by (left; reflexivity). rewrite IH by (intros y I; apply H; right; exact I).
  reflexivity.
Qed.
Lemma all_some_map1 {A B} (f : A -> option B) (h : A -> B) l : (forall x, In x l -> f x = Some (h x)) -> all_some (map f l) = Some (map h l).
Proof. intros H. rewrite <- (map_id l) at 1. apply (all_some_map f (fun x => x) h l H). Qed.

(** ** Protocols and ports *)

Lemma proto_word_all : forallb (fun q => nonempty q && forall_char word_char q && match numeral_value q with None => true | Some _ => false end
    && negb (str_in q (nft_verdicts ++ ["counter"; "jump"; "iifname"; "oifname"; "log"]))) (map fst proto_map) = true.
Proof. vm_compute. reflexivity. Qed.
Lemma proto_word q : In q (map fst proto_map) -> plain_word q /\ nft_protocol q = Some (fun p => p_proto p = q) /\
  ~ In q (nft_verdicts ++ ["counter"; "jump"; "iifname"; "oifname"; "log"]).
Proof.
  intros I. pose proof (proj1 (forallb_forall _ _) proto_word_all q I) as H. cbv beta in H. rewrite !andb_true_iff in H. destruct H as (((A & B) & C) & D).
  split; [split; [intros ->; discriminate A|exact B]|]. split.
  - unfold nft_protocol. destruct (numeral_value q); [discriminate C|]. rewrite (proj2 (str_in_iff _ _) I). reflexivity.
  - apply negb_true_iff in D. apply str_in_false, D.
Qed.
Lemma one_of_names l p : one_of (map (fun q => fun p : packet => p_proto p = q) l) p <-> In (p_proto p) l.
Proof.
  unfold one_of. split.
  - intros (c & I & C). apply in_map_iff in I. destruct I as (q & <- & I). rewrite C. exact I.
  - intros I. exists (fun p' => p_proto p' = p_proto p). split; [apply in_map_iff; exists (p_proto p); auto|reflexivity].
Qed.
Definition proto_phrase (v : ver) : string := match v with V4 => "ip protocol" | V6 => "meta l4proto" end.
Lemma proto_piece v l : l <> [] -> (forall q, In q l -> In q (map fst proto_map)) ->
  piece (append (proto_phrase v) (append " " (nft_set l))) (fun p => (v = V4 -> fst (p_src p) = V4) /\ In (p_proto p) l).
Proof.
  intros N Q.
  assert (F : Forall plain_word l) by (apply Forall_forall; intros q I; apply proto_word, Q, I).
  assert (E : forall i, values i = l -> all_some (map nft_protocol (values i)) = Some (map (fun q => fun p : packet => p_proto p = q) l)).
  { intros i ->. apply all_some_map1. intros q I. apply proto_word, Q, I. }
  destruct v.
  - apply (match_piece "ip" "protocol" l); try (split; [discriminate|reflexivity]); try assumption.
    + cbn. intuition discriminate.
    + intros i V. eexists. split; [unfold nft_match; rewrite (E i V); reflexivity|]. intros p. cbn beta. rewrite one_of_names. intuition.
  - apply (match_piece "meta" "l4proto" l); try (split; [discriminate|reflexivity]); try assumption.
    + cbn. intuition discriminate.
    + intros i V. eexists. split; [unfold nft_match; rewrite (E i V); reflexivity|]. intros p. cbn beta. rewrite one_of_names. intuition discriminate.
Qed.
Lemma port_words_proto q : In q port_words -> plain_word q /\ ~ In q (nft_verdicts ++ ["counter"; "jump"; "iifname"; "oifname"; "log"]) /\ str_in q port_words = true.
Proof.
  intros I. split; [|split; [|apply str_in_iff, I]]; repeat destruct I as [<-|I]; try destruct I; try (split; [discriminate|reflexivity]); cbn; intuition discriminate.
Qed.
Lemma port_match q b (f : packet -> Z) l : In q port_words -> (b = "sport" /\ f = p_sport \/ b = "dport" /\ f = p_dport) -> l <> [] -> (forall r, In r l -> port_good r) ->
  piece (append q (append " " (append b (append " " (nft_ports l))))) (fun p => p_proto p = q /\ in_ports l (f p)).
Proof.
  intros Iq B N G. unfold nft_ports. destruct (port_words_proto q Iq) as (P & V & S). apply match_piece.
  - exact P.
  - destruct B as [(-> & _)|(-> & _)]; (split; [discriminate|reflexivity]).
  - destruct l; [congruence|discriminate].
  - apply Forall_forall. intros w I. apply in_map_iff in I. destruct I as (r & <- & I). apply port_word, G, I.
  - exact V.
  - intros i E. exists (fun p => p_proto p = q /\ in_ports l (f p)). split; [|tauto]. unfold nft_match. rewrite E.
    rewrite (all_some_map nft_range nft_port (fun r => r) l) by (intros r I; apply port_range, G, I). rewrite map_id.
    repeat destruct Iq as [<-|Iq]; try destruct Iq; destruct B as [(-> & ->)|(-> & ->)]; reflexivity.
Qed.
Lemma port_piece q src dst : In q port_words -> src <> [] \/ dst <> [] -> (forall r, In r (src ++ dst) -> port_good r) ->
  piece (port_statement q src dst) (fun p => p_proto p = q /\ ports_match src (p_sport p) /\ ports_match dst (p_dport p)).
Proof.
  intros Iq N G. unfold port_statement.
  assert (S : src <> [] -> piece (append q (append " sport " (nft_ports src))) (fun p => p_proto p = q /\ in_ports src (p_sport p))).
  { intros X. apply (port_match q "sport" p_sport src Iq); [auto|exact X|intros r I; apply G, in_or_app; auto]. }
  assert (D : dst <> [] -> piece (append q (append " dport " (nft_ports dst))) (fun p => p_proto p = q /\ in_ports dst (p_dport p))).
  { intros X. apply (port_match q "dport" p_dport dst Iq); [auto|exact X|intros r I; apply G, in_or_app; auto]. }
  destruct src as [|s src]; [destruct dst as [|d dst]; [destruct N; congruence|]|destruct dst as [|d dst]]; cbn [some app]; rewrite ?join_one.
  - cbn [join]. apply (piece_iff _ (fun p => p_proto p = q /\ in_ports (d :: dst) (p_dport p))); [|apply D; discriminate].
    intros p. unfold ports_match. intuition discriminate.
  - cbn [join]. apply (piece_iff _ (fun p => p_proto p = q /\ in_ports (s :: src) (p_sport p))); [|apply S; discriminate].
    intros p. unfold ports_match. intuition discriminate.
  - cbn [join]. apply (piece_iff _ (fun p => (p_proto p = q /\ in_ports (s :: src) (p_sport p)) /\ (p_proto p = q /\ in_ports (d :: dst) (p_dport p)))).
    { intros p. unfold ports_match. intuition discriminate. }
    apply piece_cat; [apply S; discriminate|apply D; discriminate].
Qed.

(** ** ICMP types *)

Definition remap1 (v : ver) (x : string) : string := match assoc x (nft_remap v) with Some y => y | None => x end.
Definition type_good (v : ver) (x : string) (n : Z) : bool :=
  let good y := nonempty y && forall_char word_char y && match nft_icmp_number v y with Some m => m =? n | None => false end in
  good (remap1 v x) && good (remap1 v (remap1 V4 x)).
Lemma types_good v : forallb (fun e => type_good v (fst e) (snd e)) (icmp_types_of v) = true.
Proof. destruct v; vm_compute; reflexivity. Qed.
Lemma type_numbers_once v : forallb (fun e => forallb (fun e' => negb (snd e =? snd e') || String.eqb (fst e) (fst e')) (icmp_types_of v)) (icmp_types_of v) = true.
Proof. destruct v; vm_compute; reflexivity. Qed.
Lemma type_number_name v x y n : In (x, n) (icmp_types_of v) -> In (y, n) (icmp_types_of v) -> x = y.
Proof.
  intros A B. pose proof (proj1 (forallb_forall _ _) (type_numbers_once v) _ A) as H. cbv beta in H.
  pose proof (proj1 (forallb_forall _ _) H _ B) as K. cbn [fst snd] in K. rewrite Z.eqb_refl in K. cbn [negb orb] in K. apply String.eqb_eq, K.
Qed.
(** the types a family sees: mapped for it, and possibly for the family before it *)
Definition seen_types (v : ver) (types l : list string) : Prop := l = map_icmp_types v types \/ l = map_icmp_types v (map_icmp_types V4 types).
Definition icmp_of (v : ver) : string := match v with V4 => "icmp" | V6 => "icmpv6" end.
Lemma type_piece v types l : types <> [] -> (forall x, In x types -> In x (map fst (icmp_types_of v))) -> seen_types v types l ->
  piece (append (icmp_of v) (append " type" (nft_add (nft_set l)))) (fun p => p_proto p = icmp_of v /\ In (p_icmp_type p) types).
Proof.
  intros N K Sn.
  assert (G : exists g, l = map g types /\ forall x, In x types -> plain_word (g x) /\ exists n, nft_icmp_number v (g x) = Some n /\ In (x, n) (icmp_types_of v)).
  { assert (T : forall x, In x types -> exists n, In (x, n) (icmp_types_of v) /\ type_good v x n = true).
    { intros x I. apply K in I. apply in_map_iff in I. destruct I as ((y, n) & <- & I). exists n. split; [exact I|].
      exact (proj1 (forallb_forall _ _) (types_good v) _ I). }
    destruct Sn as [-> | ->]; [exists (remap1 v)|exists (fun x => remap1 v (remap1 V4 x))]; (split; [unfold map_icmp_types; rewrite ?map_map; reflexivity|]);
      intros x I; destruct (T x I) as (n & In_ & Tg); unfold type_good in Tg; rewrite !andb_true_iff in Tg;
      [destruct Tg as (((A & B) & C) & _)|destruct Tg as (_ & ((A & B) & C))];
      (split; [split; [intros E; rewrite E in A; discriminate A|exact B]|exists n; split; [|exact In_]]);
      match goal with |- ?a = _ => destruct a as [m|]; [f_equal; lia|discriminate C] end. }
  destruct G as (g & -> & G).
  assert (Nl : map g types <> []) by (destruct types; [congruence|discriminate]).
  assert (Pl : Forall plain_word (map g types)).
  { apply Forall_forall. intros w I. apply in_map_iff in I. destruct I as (x & <- & I). apply G, I. }
  assert (Ad : nft_add (nft_set (map g types)) = append " " (nft_set (map g types))).
  { unfold nft_add. destruct (nonempty (nft_set (map g types))) eqn:E; [reflexivity|]. exfalso.
    destruct types as [|x [|y types]]; [congruence| |discriminate E]. cbn in E. destruct (G x (or_introl eq_refl)) as ((Q & _) & _).
    destruct (g x); [congruence|discriminate E]. }
  rewrite Ad.
  assert (A : exists ns, all_some (map (nft_icmp_number v) (map g types)) = Some ns /\
    forall ty, (exists n, In n ns /\ In (ty, n) (icmp_types_of v)) <-> In ty types).
  { clear N K Sn Nl Pl Ad. induction types as [|x types IH]; [exists []; split; [reflexivity|]; intros ty; split; [intros (n & [] & _)|intros []]|].
    destruct IH as (ns & E & M). { intros y I. apply G. right. exact I. }
    destruct (G x (or_introl eq_refl)) as (_ & n & En & In_). exists (n :: ns). cbn [map all_some]. rewrite En, E. split; [reflexivity|].
    intros ty. split.
    - intros (m & [<-|I] & J); [left; exact (type_number_name v _ _ _ In_ J)|right; apply M; exists m; auto].
    - intros [<-|I]; [exists n; split; [left; reflexivity|exact In_]|]. apply M in I. destruct I as (m & I & J). exists m. split; [right; exact I|exact J]. }
  destruct A as (ns & E & M).
  destruct v; (apply (match_piece _ "type" (map g types)); [split; [discriminate|reflexivity]|split; [discriminate|reflexivity]|exact Nl|exact Pl|cbn; intuition discriminate|];
    intros i V; eexists; split; [unfold nft_match; rewrite V, E; reflexivity|]; intros p; cbn beta; unfold type_says; rewrite (M (p_icmp_type p)); reflexivity).
Qed.

(** ** Protocols, ports and types *)

(** Pieces that together say [c] for packets of the family; none if there is no restriction. *)
Definition pieces (v : ver) (ss : list string) (c : packet -> Prop) : Prop :=
  exists cs, Forall2 piece ss cs /\ (forall d p, In d cs -> d p -> c p) /\
    (forall p, fst (p_src p) = v -> c p -> ss = [] \/ exists d, In d cs /\ d p) /\ (ss = [] -> forall p, c p).
Definition pp_says (t : term) (p : packet) : Prop :=
  protocols_match t p /\ all_ports_match t p /\ icmp_match t p.
Definition icmp_skip (v : ver) (t : term) : bool :=
  match v with V6 => str_in "icmp" (t_protocol t) | V4 => str_in "icmpv6" (t_protocol t) end || str_in "icmp6" (t_protocol t).
Lemma some_true {A} (l : list A) : some l = true <-> l <> [].
Proof. destruct l; cbn; split; congruence. Qed.
Lemma some_false {A} (l : list A) : some l = false <-> l = [].
Proof. destruct l; cbn; split; congruence. Qed.
Lemma add_nonempty s : s <> "" -> nft_add s = append " " s.
Proof. destruct s; [congruence|reflexivity]. Qed.
Lemma proto_add v l : l <> [] -> (forall q, In q l -> In q (map fst proto_map)) ->
  piece (append (proto_phrase v) (nft_add (nft_set l))) (fun p => (v = V4 -> fst (p_src p) = V4) /\ In (p_proto p) l).
Proof.
  intros N Q. rewrite add_nonempty; [apply proto_piece; assumption|]. destruct l as [|x [|y l]]; [congruence| |discriminate].
  cbn [nft_set]. apply (proto_word x), Q. left. reflexivity.
Qed.
Lemma pps_exact fams v t types l : nft_term_ok fams t -> In v fams -> seen_types v (t_icmp_type t) types -> icmp_skip v t = false ->
  types = l -> pieces v (ports_and_protocols v (t_protocol t) (t_source_port t) (t_destination_port t) l) (pp_says t).
Proof.
  intros OK Iv Sn Sk ->. pose proof (nt_only _ _ OK) as On. unfold only_nft_conditions in On.
  assert (Op : t_port t = []) by tauto. assert (Ox : t_protocol_except t = []) by tauto. assert (Oc : t_icmp_code t = []) by tauto. clear On.
  assert (Oth : str_in (match v with V4 => "icmpv6" | V6 => "icmp" end) (t_protocol t) = false).
  { unfold icmp_skip in Sk. apply orb_false_iff in Sk. destruct Sk as (Sk & _). destruct v; exact Sk. }
  assert (Cond : forall p, pp_says t p <-> (t_protocol t = [] \/ In (p_proto p) (t_protocol t)) /\
    (ports_match (t_source_port t) (p_sport p) /\ ports_match (t_destination_port t) (p_dport p)) /\
    (t_icmp_type t = [] \/ In (p_icmp_type p) (t_icmp_type t))).
  { intros p. unfold pp_says, protocols_match, all_ports_match, icmp_match, any_or, none_of. rewrite Op, Ox, Oc.
    assert (Ex : forall (x : string) l, (exists a, In a l /\ x = a) <-> In x l).
    { intros x l0. split; [intros (a & I & ->); exact I|intros I; exists x; auto]. }
    rewrite !Ex. assert (Pm : forall n, ports_match [] n) by (intros n; left; reflexivity).
    assert (No : forall a : string, In a [] -> p_proto p <> a) by (intros a []).
    pose proof (Pm (p_sport p)). pose proof (Pm (p_dport p)). intuition. }
  unfold ports_and_protocols. set (mine := match v with V4 => "icmp" | V6 => "icmpv6" end).
  change mine with (icmp_of v).
  destruct (t_icmp_type t) as [|ty0 tys] eqn:Et.
  - (* no types *)
    assert (El : l = []) by (destruct Sn as [-> | ->]; reflexivity). subst l. cbn [some andb]. cbv zeta iota. rewrite Oth. cbv iota. cbn [app].
    destruct (t_protocol t) as [|q0 qs] eqn:Eq.
    + cbn [some]. exists []. split; [constructor|]. split; [intros d p []|]. split; [auto|].
      intros _ p. apply Cond. split; [auto|]. split; [|auto].
      assert (P : forall r, ~ In r (t_source_port t ++ t_destination_port t)).
      { intros r I. destruct (nt_ports _ _ OK r I) as (_ & _ & X & _). congruence. }
      split; left; [destruct (t_source_port t) as [|r l0]|destruct (t_destination_port t) as [|r l0]]; try reflexivity; exfalso; apply (P r); apply in_or_app; [left|right]; left; reflexivity.
    + rewrite <- Eq in *. rewrite (proj2 (some_true (t_protocol t))) by congruence.
      assert (Pq : forall q, In q (t_protocol t) -> In q (map fst proto_map)) by apply (nt_protocol _ _ OK).
      assert (Np : t_protocol t <> []) by congruence.
      destruct ((1 <? Z.of_nat (List.length (t_protocol t))) && negb (some (t_source_port t) && some (t_destination_port t))) eqn:Em.
      * apply andb_true_iff in Em. destruct Em as (Em1 & Em2).
        assert (P : t_source_port t = [] /\ t_destination_port t = []).
        { destruct (t_source_port t ++ t_destination_port t) as [|r l0] eqn:Er; [apply app_eq_nil, Er|]. exfalso.
          assert (I : In r (t_source_port t ++ t_destination_port t)) by (rewrite Er; left; reflexivity).
          destruct (nt_ports _ _ OK r I) as (_ & _ & _ & _ & X). destruct X as (X1 & X2); [lia|].
          apply some_true in X1, X2. rewrite X1, X2 in Em2. discriminate Em2. }
        destruct P as (Ps & Pd).
        exists [fun p => (v = V4 -> fst (p_src p) = V4) /\ In (p_proto p) (t_protocol t)]. split; [constructor; [|constructor]; apply (proto_add v); assumption|].
        split; [|split; [|discriminate]].
        -- intros d p [<-|[]] (_ & I). apply Cond. rewrite Ps, Pd. unfold ports_match. auto 10.
        -- intros p F H. apply Cond in H. destruct H as ([H|H] & _); [congruence|]. right. eexists. split; [left; reflexivity|]. split; [congruence|exact H].
      * clear Em. destruct (some (t_source_port t) || some (t_destination_port t)) eqn:Es.
        -- apply orb_true_iff in Es. rewrite !some_true in Es.
           assert (Gp : forall r, In r (t_source_port t ++ t_destination_port t) -> port_good r) by (intros r I; destruct (nt_ports _ _ OK r I) as (A & B & _); split; assumption).
           assert (Gw : forall q, In q (t_protocol t) -> In q port_words).
           { destruct (t_source_port t ++ t_destination_port t) as [|r l0] eqn:Er; [apply app_eq_nil in Er; destruct Er, Es; congruence|].
             assert (I : In r (t_source_port t ++ t_destination_port t)) by (rewrite Er; left; reflexivity). apply (nt_ports _ _ OK r I). }
           exists (map (fun q p => p_proto p = q /\ ports_match (t_source_port t) (p_sport p) /\ ports_match (t_destination_port t) (p_dport p)) (t_protocol t)).
           split; [|split; [|split]].
           ++ clear - Es Gp Gw. induction (t_protocol t) as [|q l IH]; [constructor|]. cbn [map]. constructor; [|apply IH; intros x I; apply Gw; right; exact I].
              apply port_piece; [apply Gw; left; reflexivity|exact Es|exact Gp].
           ++ intros d p I D. apply in_map_iff in I. destruct I as (q & <- & I). destruct D as (D1 & D2). apply Cond. subst q. auto.
           ++ intros p F H. apply Cond in H. destruct H as ([H|H] & H2 & _); [congruence|]. right. eexists. split; [apply in_map_iff; exists (p_proto p); split; [reflexivity|exact H]|].
              cbn beta. auto.
           ++ destruct (t_protocol t); [congruence|discriminate].
        -- apply orb_false_iff in Es. rewrite !some_false in Es. destruct Es as (Ps & Pd).
           exists (map (fun q p => (v = V4 -> fst (p_src p) = V4) /\ In (p_proto p) [q]) (t_protocol t)).
           split; [|split; [|split]].
           ++ clear - Pq. induction (t_protocol t) as [|q l IH]; [constructor|]. cbn [map]. constructor; [|apply IH; intros x I; apply Pq; right; exact I].
              apply (proto_add v [q]); [discriminate|intros x [<-|[]]; apply Pq; left; reflexivity].
           ++ intros d p I D. apply in_map_iff in I. destruct I as (q & <- & I). destruct D as (_ & [D|[]]). rewrite D in I. apply Cond. rewrite Ps, Pd. unfold ports_match. auto 10.
           ++ intros p F H. apply Cond in H. destruct H as ([H|H] & _); [congruence|]. right. eexists. split; [apply in_map_iff; exists (p_proto p); split; [reflexivity|exact H]|].
              cbn beta. split; [congruence|left; reflexivity].
           ++ destruct (t_protocol t); [congruence|discriminate].
  - (* types: the only protocol is that of the family *)
    rewrite <- Et in *. assert (Nt : t_icmp_type t <> []) by congruence.
    assert (Pr : t_protocol t = [icmp_of v] /\ forall x, In x (t_icmp_type t) -> In x (map fst (icmp_types_of v))).
    { destruct (nt_types _ _ OK Nt) as [(A & B)|(A & B)]; rewrite A in *.
      - destruct v; [split; [reflexivity|exact B]|]. discriminate Oth.
      - destruct v; [|split; [reflexivity|exact B]]. discriminate Oth. }
    destruct Pr as (Pr & Pt). assert (Pp : t_source_port t = [] /\ t_destination_port t = []).
    { destruct (t_source_port t ++ t_destination_port t) as [|r l0] eqn:Er; [apply app_eq_nil, Er|]. exfalso.
      assert (I : In r (t_source_port t ++ t_destination_port t)) by (rewrite Er; left; reflexivity).
      destruct (nt_ports _ _ OK r I) as (_ & _ & _ & X & _). rewrite Pr in X. specialize (X _ (or_introl eq_refl)).
      destruct v; cbn in X; intuition discriminate. }
    destruct Pp as (Ps & Pd).
    assert (Nl : some l = true).
    { apply some_true. destruct Sn as [-> | ->]; destruct (t_icmp_type t); try congruence; discriminate. }
    rewrite Nl, Pr. assert (E1 : str_in (icmp_of v) [icmp_of v] = true) by (destruct v; reflexivity).
    assert (E2 : remove_first (icmp_of v) [icmp_of v] = []) by (destruct v; reflexivity). rewrite E1. cbn [andb]. cbv zeta iota. rewrite E2. cbn [str_in existsb some app].
    exists [fun p => p_proto p = icmp_of v /\ In (p_icmp_type p) (t_icmp_type t)]. split; [|split; [|split; [|discriminate]]].
    + constructor; [|constructor]. apply type_piece; assumption.
    + intros d p [<-|[]] (D1 & D2). apply Cond. rewrite Pr, Ps, Pd. unfold ports_match. split; [right; left; symmetry; exact D1|]. auto 10.
    + intros p F H. apply Cond in H. destruct H as ([H|H] & _ & [H2|H2]); [congruence|congruence|congruence|]. right. rewrite Pr in H. destruct H as [H|[]].
      eexists. split; [left; reflexivity|]. cbn beta. auto.
Qed.
