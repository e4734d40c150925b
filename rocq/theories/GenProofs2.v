(** Proofs about the shared generator code: keywords, established terms, comments. *)
From Coq Require Import Lia ZifyBool ZifyNat Sorted Permutation.
From Verif Require Import SpecGen BaseFacts PyStrFacts PortProofs GenProofs.
Local Open Scope string_scope.
Local Open Scope list_scope.
Local Open Scope Z_scope.

(** ** Supported keywords *)

Lemma some_iff {A} (l : list A) : some l = true <-> l <> [].
Proof. destruct l; simpl; split; congruence. Qed.
Lemma some_false {A} (l : list A) : some l = false <-> l = [].
Proof. destruct l; simpl; split; congruence. Qed.
Lemma active_on_spec platform t : active_on platform t = true <-> meant_for platform t.
Proof.
  unfold active_on, meant_for. rewrite andb_true_iff, orb_true_iff, negb_true_iff, negb_true_iff, some_false, str_in_spec.
  split.
  - intros [H E]. split; [exact H|]. intros I. apply str_in_spec in I. rewrite I, andb_true_r in E.
    apply some_false in E. rewrite E in I. discriminate.
  - intros [H E]. split; [exact H|]. destruct (str_in platform (t_platform_exclude t)) eqn:I.
    + apply str_in_spec in I. contradiction.
    + apply andb_false_r.
Qed.

Lemma field_error_spec k el v : field_error k (el, v) = false <-> field_ok k el v.
Proof.
  unfold field_error, field_ok. rewrite orb_false_iff. 
  assert (A : truthy v && negb (str_in el (supported k)) && negb (starts_with "flatten" el)
              && negb (str_in el warn_if_unsupported) = false <->
    (truthy v = true -> In el (supported k) \/ starts_with "flatten" el = true \/ In el warn_if_unsupported)).
  { rewrite <- (str_in_spec el (supported k)), <- (str_in_spec el warn_if_unsupported).
    destruct (truthy v), (str_in el (supported k)), (starts_with "flatten" el), (str_in el warn_if_unsupported);
      simpl; intuition congruence. }
  rewrite A. apply and_iff_compat_l. destruct v as [l|b].
  2: { split; [intros _ l subs H; discriminate|reflexivity]. }
  destruct (assoc el (sub_tokens k)) as [subs|] eqn:E.
  2: { split; [intros _ l' subs' _ H; discriminate|reflexivity]. }
  split.
  - intros H l' subs' L S. injection L as <-. injection S as <-.
    destruct (str_in ".*" subs) eqn:D; [left; apply str_in_spec; exact D|]. right.
    destruct (some l) eqn:SL; [|apply some_false in SL; subst; intros x []].
    cbn [andb negb] in H. rewrite andb_true_r, negb_false_iff, forallb_forall in H.
    intros x I. apply str_in_spec. auto.
  - intros H. destruct (H l subs eq_refl eq_refl) as [D|D].
    + apply str_in_spec in D. rewrite D, andb_false_r. reflexivity.
    + assert (F : forallb (fun x => str_in x subs) l = true).
      { apply forallb_forall. intros x I. apply str_in_spec. auto. }
      rewrite F. cbn [negb]. rewrite andb_false_r. reflexivity.
Qed.

Lemma existsb_false {A} (f : A -> bool) l : existsb f l = false <-> forall x, In x l -> f x = false.
Proof.
  split.
  - intros H x I. destruct (f x) eqn:E; [|reflexivity].
    assert (existsb f l = true) by (apply existsb_exists; eauto). congruence.
  - intros H. destruct (existsb f l) eqn:E; [|reflexivity]. apply existsb_exists in E.
    destruct E as (x & I & F). rewrite (H x I) in F. discriminate.
Qed.

Lemma check_tokens_spec platform k filters :
  check_tokens platform k filters = Ok tt <->
  (forall el, In el (map fst (sub_tokens k)) -> In el (supported k)) /\
  forall ps ts t, In (ps, ts) filters -> In platform ps -> In t ts -> meant_for platform t ->
    forall el v, In (el, v) (term_fields t) -> field_ok k el v.
Proof.
  unfold check_tokens, get_supported_tokens.
  destruct (forallb (fun e => str_in (fst e) (supported k)) (sub_tokens k)) eqn:G; cbn [bind].
  - destruct (existsb _ filters) eqn:E.
    + split; [discriminate|]. intros (_ & H). exfalso.
      apply existsb_exists in E. destruct E as ((ps, ts) & I & E). cbn [fst snd] in E.
      apply andb_true_iff in E. destruct E as (P & E). apply existsb_exists in E. destruct E as (t & T & E).
      apply andb_true_iff in E. destruct E as (A & E). apply existsb_exists in E. destruct E as ((el, v) & F & E).
      apply str_in_spec in P. apply active_on_spec in A.
      specialize (H ps ts t I P T A el v F). apply field_error_spec in H. congruence.
    + split; [|reflexivity]. intros _. split.
      { intros el I. apply in_map_iff in I. destruct I as (e & <- & I). rewrite forallb_forall in G.
        apply str_in_spec. apply G. exact I. }
      intros ps ts t I P T A el v F. apply field_error_spec.
      rewrite existsb_false in E. specialize (E _ I). cbn [fst snd] in E.
      apply str_in_spec in P. rewrite P in E. cbn [andb] in E. rewrite existsb_false in E. specialize (E _ T).
      apply active_on_spec in A. rewrite A in E. cbn [andb] in E. rewrite existsb_false in E. apply E. exact F.
  - split; [discriminate|]. intros (H & _). exfalso.
    assert (F : forallb (fun e => str_in (fst e) (supported k)) (sub_tokens k) = true).
    { apply forallb_forall. intros e I. apply str_in_spec. apply H. apply in_map. exact I. }
    congruence.
Qed.
Lemma check_tokens_error platform k filters e :
  check_tokens platform k filters = Raise e -> e = Exn "UnsupportedFilterError".
Proof.
  unfold check_tokens, get_supported_tokens. destruct (forallb _ _); cbn [bind]; [|congruence].
  destruct (existsb _ _); congruence.
Qed.

(** ** Established terms *)

Lemma fix_high_ports_spec g t af st r :
  fix_high_ports g t af st = Ok r ->
  let established := exists o, In o (t_option t) /\ starts_with "established" o = true in
  let protocols := if some (t_protocol t) then t_protocol t else [default_protocol g] in
  In af (supported_af g) /\
  (forall bad p, assoc af (filter_blacklist g) = Some bad -> In p protocols -> ~ In p bad) /\
  ((~ established /\ r = t) \/
   (established /\ st = true /\ (exists p, In p protocols /\ p <> "tcp" /\ p <> "udp") /\ r = t) \/
   (established /\ (forall p, In p protocols -> p = "tcp" \/ p = "udp") /\
    r = set_destination_port
          (collapse_port_list (if st then t_destination_port t else t_destination_port t ++ [(1024, 65535)])) t)).
Proof.
  intros H established protocols. unfold fix_high_ports in H. fold protocols in H.
  destruct (str_in af (supported_af g)) eqn:S; cbn [negb] in H; [|discriminate].
  apply str_in_spec in S. split; [exact S|].
  destruct (match assoc af (filter_blacklist g) with Some bad => existsb (fun p => str_in p bad) protocols | None => false end) eqn:B;
    [discriminate|]. split.
  { intros bad p E I J. rewrite E in B. rewrite existsb_false in B. specialize (B p I).
    apply str_in_spec in J. congruence. }
  destruct (existsb (starts_with "established") (t_option t)) eqn:E.
  - apply existsb_exists in E. right.
    destruct (forallb (fun p => str_in p ["tcp"; "udp"]) protocols) eqn:F.
    + right. split; [exact E|]. split; [|congruence].
      intros p I. rewrite forallb_forall in F. specialize (F p I). apply str_in_spec in F. simpl in F. intuition.
    + left. destruct st; cbn [negb] in H; [|discriminate]. injection H as <-. split; [exact E|]. split; [reflexivity|]. split; [|reflexivity].
      destruct (existsb (fun p => negb (str_in p ["tcp"; "udp"])) protocols) eqn:X.
      * apply existsb_exists in X. destruct X as (p & I & X). exists p. split; [exact I|].
        apply negb_true_iff in X. split; intros ->; discriminate.
      * exfalso. rewrite existsb_false in X.
        assert (forallb (fun p => str_in p ["tcp"; "udp"]) protocols = true); [|congruence].
        apply forallb_forall. intros p I. specialize (X p I). apply negb_false_iff in X. exact X.
  - left. split; [|congruence]. intros (o & I & O). rewrite existsb_false in E. rewrite (E o I) in O. discriminate.
Qed.
Lemma fix_high_ports_error g t af st e :
  fix_high_ports g t af st = Raise e ->
  let protocols := if some (t_protocol t) then t_protocol t else [default_protocol g] in
  (e = Exn "UnsupportedAFError" /\ ~ In af (supported_af g)) \/
  (e = Exn "UnsupportedFilterError" /\ exists bad p, assoc af (filter_blacklist g) = Some bad /\ In p protocols /\ In p bad) \/
  (e = Exn "EstablishedError" /\ st = false /\ (exists o, In o (t_option t) /\ starts_with "established" o = true) /\
   exists p, In p protocols /\ p <> "tcp" /\ p <> "udp").
Proof.
  intros H protocols. unfold fix_high_ports in H. fold protocols in H.
  destruct (str_in af (supported_af g)) eqn:S; cbn [negb] in H.
  2: { left. split; [congruence|]. intros I. apply str_in_spec in I. congruence. }
  destruct (assoc af (filter_blacklist g)) as [bad|] eqn:BL.
  - destruct (existsb (fun p => str_in p bad) protocols) eqn:B.
    + right. left. split; [congruence|]. apply existsb_exists in B. destruct B as (p & I & J).
      exists bad, p. split; [reflexivity|]. split; [exact I|]. apply str_in_spec. exact J.
    + right. right. destruct (existsb (starts_with "established") (t_option t)) eqn:E; [|discriminate].
      destruct (forallb (fun p => str_in p ["tcp"; "udp"]) protocols) eqn:F; [discriminate|].
      destruct st; cbn [negb] in H; [discriminate|]. split; [congruence|]. split; [reflexivity|].
      split; [apply existsb_exists; exact E|].
      destruct (existsb (fun p => negb (str_in p ["tcp"; "udp"])) protocols) eqn:X.
      * apply existsb_exists in X. destruct X as (p & I & X). exists p. split; [exact I|].
        apply negb_true_iff in X. split; intros ->; discriminate.
      * exfalso. rewrite existsb_false in X.
        assert (forallb (fun p => str_in p ["tcp"; "udp"]) protocols = true); [|congruence].
        apply forallb_forall. intros p I. specialize (X p I). apply negb_false_iff in X. exact X.
  - right. right. destruct (existsb (starts_with "established") (t_option t)) eqn:E; [|discriminate].
    destruct (forallb (fun p => str_in p ["tcp"; "udp"]) protocols) eqn:F; [discriminate|].
    destruct st; cbn [negb] in H; [discriminate|]. split; [congruence|]. split; [reflexivity|].
    split; [apply existsb_exists; exact E|].
    destruct (existsb (fun p => negb (str_in p ["tcp"; "udp"])) protocols) eqn:X.
    * apply existsb_exists in X. destruct X as (p & I & X). exists p. split; [exact I|].
      apply negb_true_iff in X. split; intros ->; discriminate.
    * exfalso. rewrite existsb_false in X.
      assert (forallb (fun p => str_in p ["tcp"; "udp"]) protocols = true); [|congruence].
      apply forallb_forall. intros p I. specialize (X p I). apply negb_false_iff in X. exact X.
Qed.

(** The conditions of a term other than the one on destination ports. *)
Lemma term_matches_dport P t p :
  term_matches (set_destination_port P t) p <->
  term_matches (set_destination_port [] t) p /\ ports_match P (p_dport p).
Proof.
  unfold term_matches.
  change (addresses_match (set_destination_port P t) p) with (addresses_match t p).
  change (protocols_match (set_destination_port P t) p) with (protocols_match t p).
  change (prefixes_match (set_destination_port P t) p) with (prefixes_match t p).
  change (options_match (set_destination_port P t) p) with (options_match t p).
  change (numbers_match (set_destination_port P t) p) with (numbers_match t p).
  change (icmp_match (set_destination_port P t) p) with (icmp_match t p).
  change (place_matches (set_destination_port P t) p) with (place_matches t p).
  change (link_matches (set_destination_port P t) p) with (link_matches t p).
  change (addresses_match (set_destination_port [] t) p) with (addresses_match t p).
  change (protocols_match (set_destination_port [] t) p) with (protocols_match t p).
  change (prefixes_match (set_destination_port [] t) p) with (prefixes_match t p).
  change (options_match (set_destination_port [] t) p) with (options_match t p).
  change (numbers_match (set_destination_port [] t) p) with (numbers_match t p).
  change (icmp_match (set_destination_port [] t) p) with (icmp_match t p).
  change (place_matches (set_destination_port [] t) p) with (place_matches t p).
  change (link_matches (set_destination_port [] t) p) with (link_matches t p).
  unfold all_ports_match.
  change (t_port (set_destination_port P t)) with (t_port t).
  change (t_port (set_destination_port [] t)) with (t_port t).
  change (t_source_port (set_destination_port P t)) with (t_source_port t).
  change (t_source_port (set_destination_port [] t)) with (t_source_port t).
  change (t_destination_port (set_destination_port P t)) with P.
  change (t_destination_port (set_destination_port [] t)) with (@nil prange).
  generalize (addresses_match t p) (protocols_match t p) (prefixes_match t p) (options_match t p)
    (numbers_match t p) (icmp_match t p) (place_matches t p) (link_matches t p)
    (ports_match (t_port t) (p_sport p) \/ ports_match (t_port t) (p_dport p))
    (ports_match (t_source_port t) (p_sport p)) (ports_match P (p_dport p)).
  intros A1 A2 A3 A4 A5 A6 A7 A8 B1 B2 B3.
  assert (N : ports_match [] (p_dport p)) by (left; reflexivity).
  split.
  - intros (H1 & H2 & (H3 & H4 & H5) & H6 & H7 & H8 & H9 & H10 & H11). auto 12.
  - intros ((H1 & H2 & (H3 & H4 & H5) & H6 & H7 & H8 & H9 & H10 & H11) & H12). auto 12.
Qed.
Lemma fix_high_ports_matches g t af r :
  fix_high_ports g t af false = Ok r -> (exists o, In o (t_option t) /\ starts_with "established" o = true) ->
  forall p, term_matches r p <->
    term_matches (set_destination_port [] t) p /\
    (in_ports (t_destination_port t) (p_dport p) \/ 1024 <= p_dport p <= 65535).
Proof.
  intros H E p. apply fix_high_ports_spec in H. destruct H as (_ & _ & [(N & _)|[(_ & D & _)|(_ & _ & ->)]]).
  - contradiction.
  - discriminate.
  - rewrite term_matches_dport. apply and_iff_compat_l. unfold ports_match.
    rewrite collapse_ports_cover, in_ports_app, in_ports_cons, in_ports_nil. unfold in_range; cbn [fst snd].
    assert (X : collapse_port_list (t_destination_port t ++ [(1024, 65535)]) <> []).
    { intros X. assert (I : in_ports (collapse_port_list (t_destination_port t ++ [(1024, 65535)])) 1024).
      { rewrite collapse_ports_cover, in_ports_app, in_ports_cons. right. left. unfold in_range. simpl. lia. }
      rewrite X in I. apply in_ports_nil in I. exact I. }
    tauto.
Qed.

(** ** Protocols *)

Lemma dec_in_map s : str_in s (map (fun kv => dec (snd kv)) proto_map) = true <->
  exists n, s = dec n /\ In n (map snd proto_map).
Proof.
  rewrite str_in_spec, in_map_iff. split.
  - intros ((k, n) & E & I). exists n. split; [symmetry; exact E|]. apply (in_map snd) in I. exact I.
  - intros (n & E & I). apply in_map_iff in I. destruct I as ((k, m) & <- & I). exists (k, m). auto.
Qed.
Lemma term_protocols_spec always protocols :
  (forall a, In a always -> In a (map fst proto_map)) ->
  match term_protocols always protocols with
  | Ok l => Forall2 (fun s v => (exists n, protocol_number (PName s) n) /\
                       (forall n, protocol_number v n -> protocol_number (PName s) n) /\
                       (if str_in s always then exists n, v = PNum n else v = PName s)) protocols l
  | Raise e => e = Exn "UnsupportedFilterError" /\ exists s, In s protocols /\ forall n, ~ protocol_number (PName s) n
  end.
Proof.
  intros A. unfold term_protocols. destruct protocols as [|p0 ps0]; [constructor|]. cbn [some].
  set (ps := p0 :: ps0). clearbody ps. clear p0 ps0.
  destruct (forallb _ ps) eqn:F.
  - rewrite forallb_forall in F. unfold protocol_name_to_number. induction ps as [|s ps IH]; cbn [mapM]; [constructor|].
    assert (K : exists n, protocol_number (PName s) n).
    { specialize (F s (or_introl eq_refl)). cbv beta in F. destruct (assoc s proto_map) as [n|] eqn:E.
      - exists n. left. apply assoc_in. exact E.
      - apply dec_in_map in F. destruct F as (n & X & Y). exists n. right. auto. }
    assert (IHs := IH (fun x I => F x (or_intror I))). clear IH.
    destruct (str_in s always) eqn:S.
    + assert (M : exists n, assoc s proto_map = Some n).
      { destruct (assoc s proto_map) as [n|] eqn:E; [eauto|]. exfalso. apply assoc_none in E.
        apply E, A. apply str_in_spec. exact S. }
      destruct M as (n & M). rewrite M. cbn [bind].
      destruct (mapM _ ps) as [l|e]; cbn [bind].
      * constructor; [|exact IHs]. split; [exact K|]. rewrite S. split; [|eauto].
        intros m Hm. cbn [protocol_number] in *. subst m. left. apply assoc_in. exact M.
      * destruct IHs as (E & x & I & X). split; [exact E|]. exists x. simpl. auto.
    + cbn [bind]. destruct (mapM _ ps) as [l|e]; cbn [bind].
      * constructor; [|exact IHs]. split; [exact K|]. rewrite S. auto.
      * destruct IHs as (E & x & I & X). split; [exact E|]. exists x. simpl. auto.
  - split; [reflexivity|].
    destruct (existsb (fun p => negb match assoc p proto_map with Some _ => true | None => str_in p (map (fun kv => dec (snd kv)) proto_map) end) ps) eqn:X.
    + apply existsb_exists in X. destruct X as (s & I & X). exists s. split; [exact I|]. intros n.
      apply negb_true_iff in X. destruct (assoc s proto_map) as [m|] eqn:E; [discriminate|].
      intros [H|(H1 & H2)].
      * apply assoc_none in E. apply E. apply (in_map fst) in H. exact H.
      * assert (Y : str_in s (map (fun kv => dec (snd kv)) proto_map) = true) by (apply dec_in_map; eauto). congruence.
    + exfalso. rewrite existsb_false in X.
      match type of F with ?f = false => assert (f = true); [|congruence] end.
      apply forallb_forall. intros s I. specialize (X s I). apply negb_false_iff in X. exact X.
Qed.

(** ** Truncated comments *)

Lemma truncate_words_length w n : 0 <= n -> slen (truncate_words w n) <= Z.min n 126 + 2.
Proof.
  intros N. unfold truncate_words. set (c := match w with Lines l => _ | Line s => s end). clearbody c.
  assert (L : slen (slice_to c (if 126 <? n then 126 else n)) <= Z.min n 126).
  { destruct (126 <? n) eqn:E.
    - pose proof (slice_to_length c 126 ltac:(lia)). lia.
    - pose proof (slice_to_length c n N). lia. }
  unfold slen in *. cbn [String.length]. rewrite length_app. simpl. lia.
Qed.
Lemma truncate_words_shape w n : exists c q, truncate_words w n = String dquote (c ++ String dquote "")%string /\
  match w with Lines l => join " " (map (map_string sanitize_char) l) | Line s => s end = (c ++ q)%string.
Proof.
  unfold truncate_words. set (c := match w with Lines l => _ | Line s => s end). clearbody c.
  destruct (slice_to_prefix c (if 126 <? n then 126 else n)) as (q & Q). eexists. exists q. split; [reflexivity|exact Q].
Qed.
Lemma truncate_words_all w n : match w with Lines l => slen (join " " (map (map_string sanitize_char) l)) | Line s => slen s end <= Z.min n 126 ->
  truncate_words w n = String dquote ((match w with Lines l => join " " (map (map_string sanitize_char) l) | Line s => s end) ++ String dquote "")%string.
Proof.
  intros H. unfold truncate_words. f_equal. f_equal. apply slice_to_all. destruct w; destruct (126 <? n) eqn:E; lia.
Qed.
Lemma sanitize_clean s c : (c = newline \/ c = dquote) -> has_char c (map_string sanitize_char s) = false.
Proof.
  intros C. induction s as [|d s IH]; cbn [map_string has_char]; [reflexivity|]. rewrite IH, orb_false_r.
  unfold sanitize_char. destruct (Ascii.eqb_spec d newline) as [->|N]; [|destruct (Ascii.eqb_spec d dquote) as [->|M]].
  - destruct C as [->| ->]; reflexivity.
  - destruct C as [->| ->]; reflexivity.
  - destruct C as [->| ->]; apply Ascii.eqb_neq; assumption.
Qed.
Lemma join_clean c l : has_char c " " = false -> (forall s, In s l -> has_char c s = false) -> has_char c (join " " l) = false.
Proof.
  intros C. induction l as [|s l IH]; intros H; [reflexivity|]. destruct l as [|s' l].
  - apply H. simpl. auto.
  - change (join " " (s :: s' :: l)) with (s ++ (" " ++ join " " (s' :: l)))%string.
    rewrite has_char_app, has_char_app, C, (H s (or_introl eq_refl)), IH; [reflexivity|].
    intros x I. apply H. right. exact I.
Qed.
Lemma truncate_words_clean l n : exists c, truncate_words (Lines l) n = String dquote (c ++ String dquote "")%string /\
  has_char newline c = false /\ has_char dquote c = false.
Proof.
  destruct (truncate_words_shape (Lines l) n) as (c & q & E & Q). exists c. split; [exact E|].
  assert (J : forall d, d = newline \/ d = dquote -> has_char d c = false).
  { intros d D. assert (X : has_char d (join " " (map (map_string sanitize_char) l)) = false).
    { apply join_clean; [destruct D as [->| ->]; reflexivity|]. intros s I. apply in_map_iff in I.
      destruct I as (x & <- & _). apply sanitize_clean. exact D. }
    rewrite Q, has_char_app in X. apply orb_false_iff in X. apply X. }
  split; apply J; auto.
Qed.

(** ** Which fields an accepted term may set *)

Lemma not_listed_list (l : list string) : truthy (VList l) <> true -> l = [].
Proof. destruct l; simpl; congruence. Qed.
Lemma not_listed_atom {A} (l : list A) : truthy (VAtom (some l)) <> true -> l = [].
Proof. destruct l; simpl; congruence. Qed.
Lemma not_given (o : option string) : truthy (VAtom (given o)) <> true -> o = None \/ o = Some "".
Proof. destruct o as [[|c s]|]; simpl; auto. intros H. exfalso. apply H. reflexivity. Qed.
Lemma not_nonzero (o : option Z) : truthy (VAtom match o with Some n => negb (Z.eqb n 0) | None => false end) <> true ->
  o = None \/ o = Some 0.
Proof. destruct o as [n|]; simpl; auto. destruct (Z.eqb_spec n 0) as [->|N]; simpl; auto; congruence. Qed.

Section Accepted.
  Context (platform : string) (k : tokens) (filters : list (list string * list term)) (ps : list string)
    (ts : list term) (t : term).
  Hypothesis acc : check_tokens platform k filters = Ok tt.
  Hypothesis inf : In (ps, ts) filters.
  Hypothesis inp : In platform ps.
  Hypothesis int : In t ts.
  Hypothesis mf : meant_for platform t.
  Lemma accepted_field el v : In (el, v) (term_fields t) -> field_ok k el v.
  Proof. apply check_tokens_spec in acc. destruct acc as (_ & H). exact (H ps ts t inf inp int mf el v). Qed.
  Lemma accepted_unset el v : In (el, v) (term_fields t) -> starts_with "flatten" el = false ->
    str_in el warn_if_unsupported = false -> ~ In el (supported k) -> truthy v <> true.
  Proof.
    intros I F W N T. apply accepted_field in I. destruct I as (I & _). destruct (I T) as [H|[H|H]].
    - contradiction.
    - congruence.
    - apply str_in_spec in H. congruence.
  Qed.
  Local Ltac field := match goal with N : ~ In ?el (supported k) |- _ =>
      apply (fun v I => accepted_unset el v I eq_refl eq_refl N); unfold term_fields;
      repeat first [left; reflexivity|right] end.
  Local Ltac tell := (apply not_listed_list; field) || (apply not_listed_atom; field) || (apply not_given; field)
    || (apply not_nonzero; field).
  Lemma unsupported_not_set_ :
    (~ In "address" (supported k) -> t_address t = []) /\
    (~ In "address_exclude" (supported k) -> t_address_exclude t = []) /\
    (~ In "source_address" (supported k) -> t_source_address t = []) /\
    (~ In "source_address_exclude" (supported k) -> t_source_address_exclude t = []) /\
    (~ In "destination_address" (supported k) -> t_destination_address t = []) /\
    (~ In "destination_address_exclude" (supported k) -> t_destination_address_exclude t = []) /\
    (~ In "port" (supported k) -> t_port t = []) /\
    (~ In "source_port" (supported k) -> t_source_port t = []) /\
    (~ In "destination_port" (supported k) -> t_destination_port t = []) /\
    (~ In "protocol" (supported k) -> t_protocol t = []) /\
    (~ In "protocol_except" (supported k) -> t_protocol_except t = []) /\
    (~ In "option" (supported k) -> t_option t = []) /\
    (~ In "source_prefix" (supported k) -> t_source_prefix t = []) /\
    (~ In "source_prefix_except" (supported k) -> t_source_prefix_except t = []) /\
    (~ In "destination_prefix" (supported k) -> t_destination_prefix t = []) /\
    (~ In "destination_prefix_except" (supported k) -> t_destination_prefix_except t = []) /\
    (~ In "precedence" (supported k) -> t_precedence t = []) /\
    (~ In "forwarding_class" (supported k) -> t_forwarding_class t = []) /\
    (~ In "forwarding_class_except" (supported k) -> t_forwarding_class_except t = []) /\
    (~ In "icmp_type" (supported k) -> t_icmp_type t = []) /\
    (~ In "icmp_code" (supported k) -> t_icmp_code t = []) /\
    (~ In "ether_type" (supported k) -> t_ether_type t = []) /\
    (~ In "traffic_type" (supported k) -> t_traffic_type t = []) /\
    (~ In "dscp_match" (supported k) -> t_dscp_match t = []) /\
    (~ In "dscp_except" (supported k) -> t_dscp_except t = []) /\
    (~ In "source_zone" (supported k) -> t_source_zone t = []) /\
    (~ In "destination_zone" (supported k) -> t_destination_zone t = []) /\
    (~ In "ttl" (supported k) -> t_ttl t = None \/ t_ttl t = Some 0) /\
    (~ In "fragment_offset" (supported k) -> t_fragment_offset t = None \/ t_fragment_offset t = Some "") /\
    (~ In "hop_limit" (supported k) -> t_hop_limit t = None \/ t_hop_limit t = Some "") /\
    (~ In "packet_length" (supported k) -> t_packet_length t = None \/ t_packet_length t = Some "") /\
    (~ In "source_interface" (supported k) -> t_source_interface t = None \/ t_source_interface t = Some "") /\
    (~ In "destination_interface" (supported k) -> t_destination_interface t = None \/ t_destination_interface t = Some "").
  Proof. repeat (split; [intros N; tell|]). intros N; tell. Qed.
  Lemma sub_tokens_listed_ subs : ~ In ".*" subs ->
    (assoc "option" (sub_tokens k) = Some subs -> forall o, In o (t_option t) -> In o subs) /\
    (assoc "action" (sub_tokens k) = Some subs -> forall o, In o (t_action t) -> In o subs) /\
    (assoc "icmp_type" (sub_tokens k) = Some subs -> forall o, In o (t_icmp_type t) -> In o subs).
  Proof.
    intros N. split; [|split]; intros A o I.
    1: assert (F : field_ok k "option" (VList (t_option t))).
    3: assert (F : field_ok k "action" (VList (t_action t))).
    5: assert (F : field_ok k "icmp_type" (VList (t_icmp_type t))).
    1,3,5: apply accepted_field; unfold term_fields; repeat first [left; reflexivity|right].
    all: destruct F as (_ & F); destruct (F _ subs eq_refl A) as [H|H]; [contradiction|auto].
  Qed.
End Accepted.
Definition unsupported_not_set platform k filters ps ts t acc inf inp int mf :=
  unsupported_not_set_ platform k filters ps ts t acc inf inp int mf.
Definition sub_tokens_listed platform k filters ps ts t subs acc inf inp int mf :=
  sub_tokens_listed_ platform k filters ps ts t acc inf inp int mf subs.
