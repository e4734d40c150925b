(** Proofs about the Google Compute Engine generator: single rules and single terms. *)
From Coq Require Import Lia ZifyBool ZifyNat Permutation.
From Verif Require Import SpecGce BaseFacts PyStrFacts IPFacts CollapseProofs ExcludeProofs PolicyProofs GenProofs TextProofs CiscoProofs.
Local Open Scope string_scope.
Local Open Scope list_scope.
Local Open Scope Z_scope.

(** ** Dictionaries *)
Lemma assoc_jset k k' v d : assoc k (jset k' v d) = if String.eqb k k' then Some v else assoc k d.
Proof.
  induction d as [|[q x] d IH]; cbn [jset assoc].
  - reflexivity.
  - destruct (String.eqb k' q) eqn:E; cbn [assoc].
    + apply String.eqb_eq in E. subst q. destruct (String.eqb k k'); reflexivity.
    + rewrite IH. destruct (String.eqb k q) eqn:E1; [|reflexivity].
      apply String.eqb_eq in E1. subst q. rewrite String.eqb_sym, E. reflexivity.
Qed.
Ltac fields := repeat (rewrite assoc_jset; cbn [String.eqb Ascii.eqb Bool.eqb]).

(** ** Chunks *)
Lemma chunks_concat {A} (n : nat) : (0 < n)%nat -> forall fuel (l : list A), (List.length l <= fuel)%nat ->
  concat (chunks fuel n l) = l.
Proof.
  intros Hn. induction fuel as [|f IH]; intros l H; cbn [chunks].
  - destruct l; [reflexivity|cbn in H; lia].
  - destruct l as [|x l]; [reflexivity|]. cbn [concat]. rewrite IH, firstn_skipn; [reflexivity|].
    rewrite skipn_length. cbn [List.length] in *. lia.
Qed.
Lemma chunks_length {A} (n : nat) : forall fuel (l : list A) c, In c (chunks fuel n l) -> (List.length c <= n)%nat.
Proof.
  induction fuel as [|f IH]; intros l c H; cbn [chunks] in H; [destruct H|].
  destruct l as [|x l]; [destruct H|]. destruct H as [<-|H]; [rewrite firstn_length; lia|eauto].
Qed.
Lemma chunks_in {A} (n : nat) (l : list A) x : (0 < n)%nat ->
  In x l <-> exists c, In c (chunks (List.length l) n l) /\ In x c.
Proof.
  intros Hn. rewrite <- (chunks_concat n Hn (List.length l) l (le_n _)) at 1. rewrite in_concat. firstorder.
Qed.

(** a rule of a chunk: the shared part, perhaps with another name, and the chunk's ranges *)
Definition same_but_name (d d' : list (string * json)) : Prop := forall k, k <> "name" -> assoc k d' = assoc k d.
Lemma chunk_rules_in key several d : forall cs i r, In r (chunk_rules key several i d cs) <->
  exists n c, nth_error cs n = Some c /\
    r = jset key (jstrings (map prefixlen_text c))
          (if several then match assoc "name" d with
                           | Some (JStr s) => jset "name" (JStr (append s (append "-" (dec (i + Z.of_nat n))))) d
                           | _ => d end else d).
Proof.
  induction cs as [|c cs IH]; intros i r; cbn [chunk_rules].
  - split; [intros []|]. intros (n & c & H & _). destruct n; discriminate H.
  - split.
    + intros [<-|H].
      * exists O, c. split; [reflexivity|]. rewrite Z.add_0_r. reflexivity.
      * apply IH in H. destruct H as (n & c' & H & ->). exists (S n), c'. split; [assumption|].
        replace (i + 1 + Z.of_nat n) with (i + Z.of_nat (S n)) by lia. reflexivity.
    + intros (n & c' & H & ->). destruct n as [|n].
      * left. injection H as ->. rewrite Z.add_0_r. reflexivity.
      * right. apply IH. exists n, c'. split; [exact H|].
        replace (i + 1 + Z.of_nat n) with (i + Z.of_nat (S n)) by lia. reflexivity.
Qed.
Lemma address_rules_spec key l d : key <> "name" ->
  (forall r, In r (address_rules key l d) -> exists c, incl c l /\ (List.length c <= 256)%nat /\ assoc key r = Some (jstrings (map prefixlen_text c)) /\
     forall k, k <> "name" -> k <> key -> assoc k r = assoc k d) /\
  (forall n, In n l -> exists r c, In r (address_rules key l d) /\ In n c /\ incl c l /\ assoc key r = Some (jstrings (map prefixlen_text c)) /\
     forall k, k <> "name" -> k <> key -> assoc k r = assoc k d).
Proof.
  intros Hk. unfold address_rules. set (cs := chunks (List.length l) 256 l).
  assert (F : forall c i, let r := jset key (jstrings (map prefixlen_text c))
      (if (1 <? List.length cs)%nat then match assoc "name" d with
         | Some (JStr s) => jset "name" (JStr (append s (append "-" (dec i)))) d | _ => d end else d) in
      assoc key r = Some (jstrings (map prefixlen_text c)) /\ forall k, k <> "name" -> k <> key -> assoc k r = assoc k d).
  { intros c i r. unfold r. split; [rewrite assoc_jset, String.eqb_refl; reflexivity|].
    intros k Kn Kk. rewrite assoc_jset. apply String.eqb_neq in Kk, Kn. rewrite Kk.
    destruct (1 <? List.length cs)%nat; [|reflexivity].
    destruct (assoc "name" d) as [[s| | | |]|]; try reflexivity. rewrite assoc_jset, Kn. reflexivity. }
  split.
  - intros r H. apply chunk_rules_in in H. destruct H as (n & c & H & ->). exists c.
    apply nth_error_In in H. split; [|split; [exact (chunks_length _ _ _ _ H)|apply F]].
    intros x Hx. apply (chunks_in 256); [lia|]. exists c. split; assumption.
  - intros n Hn. apply (chunks_in 256 l n) in Hn; [|lia]. destruct Hn as (c & Hc & Hn).
    assert (Ic : incl c l) by (intros x Hx; apply (chunks_in 256); [lia|]; exists c; split; assumption).
    apply In_nth_error in Hc. destruct Hc as [k Hc]. eexists. exists c. split; [|split; [exact Hn|split; [exact Ic|]]].
    + apply chunk_rules_in. exists k, c. split; [exact Hc|reflexivity].
    + apply F.
Qed.

(** ** Addresses *)
Definition not_char (a : ascii) (c : ascii) : bool := negb (Ascii.eqb c a).
Lemma not_char_has a s : forall_char (not_char a) s = true -> has_char a s = false.
Proof. intros H. eapply forall_char_has; [exact H|]. unfold not_char. rewrite Ascii.eqb_refl. reflexivity. Qed.
Lemma quad_nocolon n : has_char ":" (int32_to_dotted_quad n) = false.
Proof.
  apply not_char_has. unfold int32_to_dotted_quad. apply forall_char_join; [reflexivity|]. intros x I.
  assert (forall k, forall_char (not_char ":") (dec (Z.land (Z.shiftr n k) 255)) = true) as D.
  { intros k. eapply forall_char_impl; [|apply dec_digits, Z.land_nonneg; right; lia].
    intros c. destruct c as [[] [] [] [] [] [] [] []]; vm_compute; congruence. }
  destruct I as [<-|[<-|[<-|[<-|[]]]]]; apply D.
Qed.
Lemma v6_nodot a : has_char "." (addr_text V6 a) = false.
Proof.
  apply not_char_has. cbn [addr_text]. apply forall_char_join; [reflexivity|]. intros x I.
  apply compress_in in I. destruct I as [->|I]; [reflexivity|].
  apply in_map_iff in I. destruct I as (h & <- & I). pose proof (hextets_range a h I) as R.
  eapply forall_char_impl; [|apply (group_chars _ _ (hex_value h R))].
  intros c. destruct c as [[] [] [] [] [] [] [] []]; vm_compute; congruence.
Qed.
Lemma cut_gap_none s : has_char ":" s = false -> cut_gap s = None.
Proof.
  induction s as [|c s IH]; [reflexivity|]. cbn [has_char cut_gap]. intros H. apply orb_false_iff in H. destruct H as [H1 H2].
  cbn [String.prefix]. destruct (ascii_dec ":" c) as [<-|N]; [discriminate H1|]. rewrite (IH H2). reflexivity.
Qed.
Lemma other_family_text v a : ip_value (match v with V4 => V6 | V6 => V4 end) (addr_text v a) = None.
Proof.
  destruct v; cbn [ip_value].
  - unfold v6_value. cbn [addr_text]. rewrite (cut_gap_none _ (quad_nocolon a)). unfold groups.
    destruct (int32_to_dotted_quad a) as [|c s] eqn:E; [reflexivity|]. rewrite <- E.
    rewrite split_char_none by apply quad_nocolon. cbn [map all_some].
    destruct (group_value _); reflexivity.
  - unfold quad_value. rewrite split_char_none by apply v6_nodot. cbn [map].
    destruct (numeral_value _); reflexivity.
Qed.
Lemma prefix_before n : before_char "/" (prefixlen_text n) = addr_text (nver n) (naddr n).
Proof.
  unfold prefixlen_text. change (append "/" (dec (nlen n))) with (String "/" (dec (nlen n))).
  rewrite (before_char_app "/" _ _ (addr_text_noslash _ _)). cbn [before_char]. change (Ascii.eqb "/" "/") with true. apply str_app_nil.
Qed.
Definition on_net (x : ipaddr) : Prop := 0 <= snd x < 2 ^ width (fst x).
Lemma range_text n x : valid n -> on_net x -> range_has x (prefixlen_text n) <-> covers n x.
Proof.
  intros V H. unfold range_has, on_net in *. destruct x as [v x]. cbn [fst snd] in *.
  destruct (ver_eqb v (nver n)) eqn:E.
  - apply ver_eqb_eq in E. subst v. apply prefix_text_says; assumption.
  - split.
    + intros (a & len & _ & B & _). exfalso. rewrite prefix_before in B.
      pose proof (other_family_text (nver n) (naddr n)) as O. destruct v, (nver n); try discriminate E; congruence.
    + intros [C _]. cbn [fst] in C. subst v. rewrite (proj2 (ver_eqb_eq _ _) eq_refl) in E. discriminate E.
Qed.
Lemma lists_ranges r key c x : assoc key r = Some (jstrings (map prefixlen_text c)) -> valid_list c -> on_net x ->
  lists r key (range_has x) <-> covered c x.
Proof.
  intros A V H. unfold valid_list in V. rewrite Forall_forall in V. unfold lists, jstrings in *. split.
  - intros (l & s & E & I & R). rewrite A in E. injection E as <-. apply in_map_iff in I. destruct I as (s' & E & I).
    injection E as ->. apply in_map_iff in I. destruct I as (n & <- & I). exists n. split; [exact I|].
    apply range_text; auto.
  - intros (n & I & C). eexists. exists (prefixlen_text n). split; [exact A|]. split.
    + apply in_map, in_map, I.
    + apply range_text; auto.
Qed.

Lemma ipv4_format_style n : valid n -> nver n = V6 -> ipv4_format n = true <-> ipv4_style (naddr n).
Proof.
  intros (_ & Ha & _) E. unfold ipv4_format, ipv4_style. rewrite E in *. cbn [width] in Ha.
  rewrite !Z.shiftr_div_pow2 by lia.
  assert (D : forall k c, 0 <= k -> (naddr n / 2 ^ k =? c) = true <-> c * 2 ^ k <= naddr n < (c + 1) * 2 ^ k).
  { intros k c Hk. rewrite Z.eqb_eq. pose proof (Z.pow_pos_nonneg 2 k ltac:(lia) Hk) as P.
    pose proof (Z.div_mod (naddr n) (2 ^ k) ltac:(lia)). pose proof (Z.mod_pos_bound (naddr n) (2 ^ k) P). split; [intros <-; nia|].
    intros B. symmetry. apply Z.div_unique with (r := naddr n - c * 2 ^ k); nia. }
  rewrite !orb_true_iff, andb_true_iff, negb_true_iff, Z.eqb_neq, !D by lia. lia.
Qed.
(** what is left of a list for one family *)
Lemma gce_addresses_in v l n : In n (gce_addresses v l) <-> In n l /\ nver n = v /\ ipv4_format n = false.
Proof.
  unfold gce_addresses. rewrite filter_In, negb_true_iff. unfold sort_addr_list.
  split.
  - intros [I E]. apply (Permutation_in _ (py_sorted_perm key_leb _)) in I. apply filter_In in I.
    rewrite ver_eqb_eq in I. tauto.
  - intros (I & E & F). split; [|exact F]. apply (Permutation_in _ (Permutation_sym (py_sorted_perm key_leb _))).
    apply filter_In. rewrite ver_eqb_eq. auto.
Qed.
Lemma gce_addresses_valid v l : valid_list l -> valid_list (gce_addresses v l).
Proof.
  unfold valid_list. rewrite !Forall_forall. intros H n I. apply gce_addresses_in in I. apply H, I.
Qed.
Lemma gce_addresses_covered v l x : (forall n, In n l -> ipv4_format n = false) ->
  covered (gce_addresses v l) (v, x) <-> covered l (v, x).
Proof.
  intros F. split; intros (n & I & C); exists n; (split; [|exact C]).
  - apply gce_addresses_in in I. apply I.
  - apply gce_addresses_in. split; [exact I|]. split; [apply C|apply F, I].
Qed.
Lemma gce_addresses_other v w l x : v <> w -> ~ covered (gce_addresses v l) (w, x).
Proof. intros N (n & I & C). apply gce_addresses_in in I. destruct C as [C _]. cbn in C. destruct I as (_ & E & _). congruence. Qed.

(** ** Exclusions, done once or twice *)
Definition excludable (inc exc : list net) : Prop :=
  valid_list inc /\ valid_list exc /\
  (exc = [] \/ (one_family inc /\ one_family exc /\ (pairwise_disjoint inc \/ forall x, covered inc x -> ~ covered exc x))).
Lemma subtractable_excludable inc exc : subtractable inc exc -> excludable inc exc.
Proof. intros (A & B & [C|(C & D & E)]); (split; [exact A|]; split; [exact B|]); [left|right]; auto. Qed.
Lemma one_family_unmixed l : one_family l -> mixed_versions l = false.
Proof.
  intros H. unfold mixed_versions. destruct (existsb (fun n => ver_eqb (nver n) V4) l) eqn:E4; [|reflexivity].
  destruct (existsb (fun n => ver_eqb (nver n) V6) l) eqn:E6; [|reflexivity].
  apply existsb_exists in E4, E6. destruct E4 as (a & Ha & E4), E6 as (b & Hb & E6).
  apply ver_eqb_eq in E4, E6. specialize (H a b Ha Hb). congruence.
Qed.
Lemma covers_first n : valid n -> covers n (nver n, naddr n).
Proof. intros V. split; [reflexivity|]. pose proof (size_pos n ltac:(apply V)). cbn. lia. Qed.
Lemma exclude_one_apart e : forall fuel sup ret, (List.length sup < fuel)%nat -> (forall s, In s sup -> overlaps s e = false) ->
  exists ret' sup', exclude_one fuel sup e ret = Ok (ret', sup') /\ Permutation (ret' ++ sup') (ret ++ sup) /\ incl sup' sup.
Proof.
  induction fuel as [|f IH]; intros sup ret L H; [lia|]. destruct sup as [|s sup]; cbn [exclude_one].
  - exists ret, []. split; [reflexivity|]. split; [reflexivity|]. intros x [].
  - rewrite (H s (or_introl eq_refl)). destruct (key_ltb s e).
    + cbn [List.length] in L. destruct (IH sup (s :: ret)) as (r & u & E & P & I); [lia|intros; apply H; right; assumption|].
      exists r, u. split; [exact E|]. split.
      * eapply perm_trans; [exact P|]. cbn [app]. apply Permutation_middle.
      * intros x Hx. right. apply I, Hx.
    + exists ret, (s :: sup). split; [reflexivity|]. split; [reflexivity|]. apply incl_refl.
Qed.
Lemma exclude_loop_apart : forall ex sup ret, (forall s e, In s sup -> In e ex -> overlaps s e = false) ->
  exists ret' sup', exclude_loop sup ex ret = Ok (ret', sup') /\ Permutation (ret' ++ sup') (ret ++ sup).
Proof.
  induction ex as [|e ex IH]; intros sup ret H; cbn [exclude_loop].
  - exists ret, sup. split; reflexivity.
  - destruct (exclude_one_apart e (520 * List.length sup + 1) sup ret) as (r & u & E & P & I).
    + lia.
    + intros s Hs. apply H; [exact Hs|left; reflexivity].
    + rewrite E. cbn [bind]. destruct (IH u r) as (r' & u' & E' & P').
      * intros s e' Hs He. apply H; [apply I, Hs|right; exact He].
      * exists r', u'. split; [exact E'|]. eapply perm_trans; [exact P'|exact P].
Qed.
Lemma covered_perm l k x : Permutation l k -> covered l x <-> covered k x.
Proof. intros P. split; intros (n & I & C); exists n; (split; [|exact C]); [apply (Permutation_in _ P I)|apply (Permutation_in _ (Permutation_sym P) I)]. Qed.
Lemma exclude_apart inc exc : valid_list inc -> valid_list exc -> one_family inc -> one_family exc ->
  (forall x, covered inc x -> ~ covered exc x) ->
  exists r, address_list_exclude inc exc false = Ok r /\ valid_list r /\ forall x, covered r x <-> covered inc x.
Proof.
  intros Vi Ve Oi Oe D. unfold address_list_exclude. rewrite (one_family_unmixed _ Oi), (one_family_unmixed _ Oe).
  cbn [bind]. unfold py_sorted_rev. rewrite !rev_involutive.
  set (sup := py_sorted key_leb (rev inc)). set (ex := py_sorted key_leb (rev exc)).
  assert (Ps : Permutation sup inc) by (eapply perm_trans; [apply py_sorted_perm|apply Permutation_sym, Permutation_rev]).
  assert (Pe : Permutation ex exc) by (eapply perm_trans; [apply py_sorted_perm|apply Permutation_sym, Permutation_rev]).
  pose proof Vi as Vi'. pose proof Ve as Ve'. unfold valid_list in Vi', Ve'. rewrite Forall_forall in Vi', Ve'.
  destruct (exclude_loop_apart ex sup []) as (r & u & E & P).
  { intros s e Hs He. apply (Permutation_in _ Ps) in Hs. apply (Permutation_in _ Pe) in He.
    destruct (overlaps s e) eqn:O; [|reflexivity]. apply overlaps_spec in O; auto. destruct O as (x & X1 & X2).
    exfalso. apply (D x); [exists s; auto|exists e; auto]. }
  rewrite E. cbn [bind].
  assert (P2 : Permutation (rev r ++ rev u) inc).
  { eapply perm_trans; [|exact Ps]. eapply perm_trans; [|exact P]. cbn [app]. apply Permutation_app; apply Permutation_sym, Permutation_rev. }
  assert (V2 : valid_list (rev r ++ rev u)).
  { unfold valid_list. rewrite Forall_forall. intros n I. apply Vi'. apply (Permutation_in _ P2 I). }
  unfold sorted_nokey. rewrite one_family_unmixed.
  - eexists. split; [reflexivity|]. split.
    + apply sort_valid. unfold valid_list in *. rewrite Forall_forall in *. intros n I. apply V2, dedup_incl, I.
    + intros x. rewrite covered_sort, covered_dedup by exact V2. apply covered_perm, P2.
  - intros a b Ha Hb. apply dedup_incl in Ha, Hb. apply Oi; [apply (Permutation_in _ P2 Ha)|apply (Permutation_in _ P2 Hb)].
Qed.
(** one side of a term before and after flattening *)
Definition left_of (inc exc r : list net) : Prop :=
  excludable r exc /\ (forall x, covered r x <-> covered inc x /\ ~ covered exc x) /\ (exc = [] -> r = inc).
Lemma exclude_side inc exc : excludable inc exc -> exc <> [] ->
  exists r, address_list_exclude inc exc false = Ok r /\ left_of inc exc r.
Proof.
  intros (Vi & Ve & [H|(Oi & Oe & H)]) N; [contradiction|].
  assert (X : exists r, address_list_exclude inc exc false = Ok r /\ valid_list r /\ forall x, covered r x <-> covered inc x /\ ~ covered exc x).
  { destruct H as [H|H].
    - apply exclude_ok; [|exact N]. split; [exact Vi|]. split; [exact Ve|]. right. auto.
    - destruct (exclude_apart inc exc Vi Ve Oi Oe H) as (r & E & V & C). exists r. split; [exact E|]. split; [exact V|].
      intros x. rewrite C. specialize (H x). tauto. }
  destruct X as (r & E & V & C). exists r. split; [exact E|]. split; [|split; [exact C|congruence]].
  split; [exact V|]. split; [exact Ve|]. right. split; [|split; [exact Oe|]].
  - intros a b Ha Hb. unfold valid_list in V. rewrite Forall_forall in V.
    destruct (proj1 (C (nver a, naddr a))) as [(m & Hm & Em & _) _]; [exists a; split; [exact Ha|apply covers_first, V, Ha]|].
    destruct (proj1 (C (nver b, naddr b))) as [(k & Hk & Ek & _) _]; [exists b; split; [exact Hb|apply covers_first, V, Hb]|].
    cbn in Em, Ek. rewrite <- Em, <- Ek. apply Oi; assumption.
  - right. intros x Hx. apply C in Hx. tauto.
Qed.

Record same_else (t t1 : term) : Prop := {
  se_name : t_name t1 = t_name t; se_action : t_action t1 = t_action t; se_stag : t_source_tag t1 = t_source_tag t;
  se_dtag : t_destination_tag t1 = t_destination_tag t; se_dport : t_destination_port t1 = t_destination_port t;
  se_sport : t_source_port t1 = t_source_port t; se_protocol : t_protocol t1 = t_protocol t; se_logging : t_logging t1 = t_logging t;
  se_owner : t_owner t1 = t_owner t; se_sexc : t_source_address_exclude t1 = t_source_address_exclude t;
  se_dexc : t_destination_address_exclude t1 = t_destination_address_exclude t; se_aexc : t_address_exclude t1 = t_address_exclude t }.
Lemma same_else_refl t : same_else t t. Proof. constructor; reflexivity. Qed.
Lemma same_else_trans a b c : same_else a b -> same_else b c -> same_else a c.
Proof. intros [] []. constructor; congruence. Qed.
Lemma frame_flag t : same_else t (set_flattened true t) /\
  t_source_address (set_flattened true t) = t_source_address t /\ t_destination_address (set_flattened true t) = t_destination_address t.
Proof. destruct t. split; [constructor; reflexivity|split; reflexivity]. Qed.
Lemma frame_source l m t : same_else t (set_source_address l (set_flattened_saddr m t)) /\
  t_source_address (set_source_address l (set_flattened_saddr m t)) = l /\
  t_destination_address (set_source_address l (set_flattened_saddr m t)) = t_destination_address t.
Proof. destruct t. split; [constructor; reflexivity|split; reflexivity]. Qed.
Lemma frame_destination l m t : same_else t (set_destination_address l (set_flattened_daddr m t)) /\
  t_destination_address (set_destination_address l (set_flattened_daddr m t)) = l /\
  t_source_address (set_destination_address l (set_flattened_daddr m t)) = t_source_address t.
Proof. destruct t. split; [constructor; reflexivity|split; reflexivity]. Qed.
Lemma flatten_sides t t1 : flatten_all t = Ok t1 -> t_address_exclude t = [] ->
  excludable (t_source_address t) (t_source_address_exclude t) -> excludable (t_destination_address t) (t_destination_address_exclude t) ->
  (t_source_address_exclude t <> [] \/ t_destination_address_exclude t <> []) ->
  same_else t t1 /\ left_of (t_source_address t) (t_source_address_exclude t) (t_source_address t1) /\
  left_of (t_destination_address t) (t_destination_address_exclude t) (t_destination_address t1).
Proof.
  intros H A S D N. unfold flatten_all in H. destruct (frame_flag t) as (R0 & B1 & B2). revert R0 B1 B2 H.
  generalize (set_flattened true t). intros u R0 B1 B2 H. cbv zeta in H.
  rewrite (se_sexc _ _ R0), (se_dexc _ _ R0), (se_aexc _ _ R0), A, B1 in H.
  assert (L0 : forall inc, excludable inc [] -> left_of inc [] inc).
  { intros inc E. split; [exact E|]. split; [|reflexivity]. intros x. rewrite covered_nil. tauto. }
  assert (X : some (t_source_address_exclude t) || some (t_destination_address_exclude t) || some (@nil net) = true).
  { destruct N as [N|N]; apply some_true in N; rewrite N; [reflexivity|]. rewrite orb_true_r. reflexivity. }
  rewrite X in H. cbn [negb] in H. clear X.
  match type of H with bind ?m _ = _ =>
    assert (P : exists u2, m = Ok u2 /\ same_else t u2 /\ t_destination_address u2 = t_destination_address t /\
      left_of (t_source_address t) (t_source_address_exclude t) (t_source_address u2)) end.
  { destruct (some (t_source_address_exclude t)) eqn:E.
    - apply some_true in E. destruct (exclude_side _ _ S E) as (r & R1 & R2). rewrite R1. cbn [bind].
      destruct (frame_source r r u) as (F1 & F2 & F3). eexists. split; [reflexivity|]. split; [exact (same_else_trans _ _ _ R0 F1)|].
      rewrite F2, F3. split; [exact B2|exact R2].
    - apply some_false in E. exists u. rewrite E, B1. rewrite E in S. auto. }
  destruct P as (u2 & P1 & P2 & P3 & P4). rewrite P1 in H. cbn [bind] in H. rewrite (se_dexc _ _ P2), P3 in H.
  match type of H with bind ?m _ = _ =>
    assert (P : exists u3, m = Ok u3 /\ same_else t u3 /\ t_source_address u3 = t_source_address u2 /\
      left_of (t_destination_address t) (t_destination_address_exclude t) (t_destination_address u3)) end.
  { destruct (some (t_destination_address_exclude t)) eqn:E.
    - apply some_true in E. destruct (exclude_side _ _ D E) as (r & R1 & R2). rewrite R1. cbn [bind].
      destruct (frame_destination r r u2) as (F1 & F2 & F3). eexists. split; [reflexivity|]. split; [exact (same_else_trans _ _ _ P2 F1)|].
      rewrite F2, F3. split; [reflexivity|exact R2].
    - apply some_false in E. exists u2. rewrite E, P3. rewrite E in D. auto. }
  destruct P as (u3 & Q1 & Q2 & Q3 & Q4). rewrite Q1 in H. cbn [bind] in H. rewrite (se_aexc _ _ Q2), A in H. cbn [some] in H.
  injection H as <-. rewrite Q3. auto.
Qed.

Record init_facts (dir : string) (t t1 : term) : Prop := {
  if_same : same_else t t1;
  if_src : left_of (t_source_address t) (t_source_address_exclude t) (t_source_address t1);
  if_dst : left_of (t_destination_address t) (t_destination_address_exclude t) (t_destination_address t1);
  if_sport : t_source_port t = [];
  if_in : dir = "INGRESS" -> t_destination_address t1 = [] /\ (t_source_address t <> [] \/ t_source_tag t <> []) /\
    (t_source_address t = [] -> t_source_address t1 = []) /\ (t_source_address t <> [] -> t_source_address t1 <> []);
  if_out : dir = "EGRESS" -> t_source_address t1 = [] /\ t_destination_address t1 <> [] /\ tags_present (t_destination_tag t) = false }.
Lemma nil_left exc r : left_of [] exc r -> r = [].
Proof.
  intros ((V & _) & C & _). apply empty_covered; [exact V|]. intros x H. apply C in H. destruct H as [H _]. apply covered_nil in H. exact H.
Qed.
Lemma gce_init_facts dir t t1 ps : gce_init dir t = Ok (t1, ps) -> (dir = "INGRESS" \/ dir = "EGRESS") -> t_address_exclude t = [] ->
  excludable (t_source_address t) (t_source_address_exclude t) -> excludable (t_destination_address t) (t_destination_address_exclude t) ->
  (t_destination_address t = [] -> t_destination_address_exclude t = []) ->
  term_protocols gce_numbered (t_protocol t) = Ok ps /\ init_facts dir t t1.
Proof.
  intros H Dir A S D N. unfold gce_init in H. destruct (term_protocols _ _) as [q|]; [|discriminate H]. cbn [bind] in H.
  destruct (validate_direction dir t) as [[]|] eqn:V; [|discriminate H]. cbn [bind] in H.
  destruct (some (t_source_address_exclude t) && negb (some (t_source_address t))) eqn:E1; [discriminate H|].
  destruct (negb (some (t_source_address t)) && negb (some (t_source_tag t)) && String.eqb dir "INGRESS") eqn:E2; [discriminate H|].
  destruct (some (t_source_port t)) eqn:E3; [discriminate H|]. apply some_false in E3.
  assert (V1 : dir = "INGRESS" -> (t_source_address t <> [] \/ t_source_tag t <> []) /\ t_destination_address t = []).
  { intros ->. unfold validate_direction in V. cbn [String.eqb Ascii.eqb Bool.eqb] in V.
    destruct (negb (some (t_source_address t)) && negb (some (t_source_tag t))) eqn:B; [discriminate V|].
    destruct (some (t_destination_address t)) eqn:B2; [discriminate V|]. apply some_false in B2. split; [|exact B2].
    destruct (some (t_source_address t)) eqn:B3; [left; apply some_true, B3|]. right. apply some_true. cbn in B. destruct (some (t_source_tag t)); [reflexivity|discriminate B]. }
  assert (V2 : dir = "EGRESS" -> t_source_address t = [] /\ t_destination_address t <> [] /\ tags_present (t_destination_tag t) = false).
  { intros ->. unfold validate_direction in V. cbn [String.eqb Ascii.eqb Bool.eqb] in V.
    destruct (some (t_source_address t)) eqn:B; [discriminate V|]. apply some_false in B.
    destruct (some (t_destination_address t)) eqn:B2; [|discriminate V]. apply some_true in B2. cbn [negb] in V.
    destruct (tags_present (t_destination_tag t)) eqn:B3; [discriminate V|]. auto. }
  clear V.
  destruct ((some (t_source_address_exclude t) && some (t_source_address t)) ||
            (some (t_destination_address_exclude t) && some (t_destination_address t))) eqn:E4.
  - destruct (flatten_all t) as [t2|] eqn:F; [|discriminate H]. cbn [bind] in H.
    destruct (negb (some (t_source_address t2)) && String.eqb dir "INGRESS") eqn:E5; [discriminate H|].
    destruct (negb (some (t_destination_address t2)) && String.eqb dir "EGRESS") eqn:E6; [discriminate H|].
    injection H as <- <-.
    destruct (flatten_sides t t2 F A S D) as (R & L1 & L2).
    { apply orb_true_iff in E4. rewrite !andb_true_iff, !some_true in E4. tauto. }
    split; [reflexivity|]. constructor; try assumption.
    + intros ->. destruct (V1 eq_refl) as [W1 W2]. rewrite W2 in L2. split; [exact (nil_left _ _ L2)|]. split; [exact W1|]. split.
      * intros W. rewrite W in L1. exact (nil_left _ _ L1).
      * intros _ W. rewrite W in E5. discriminate E5.
    + intros ->. destruct (V2 eq_refl) as (W1 & W2 & W3). rewrite W1 in L1. split; [exact (nil_left _ _ L1)|]. split; [|exact W3].
      intros W. rewrite W in E6. discriminate E6.
  - injection H as <- <-. split; [reflexivity|].
    assert (Xs : t_source_address_exclude t = []).
    { apply some_false. destruct (some (t_source_address_exclude t)); [|reflexivity]. destruct (some (t_source_address t)); [discriminate E4|discriminate E1]. }
    assert (Xd : t_destination_address_exclude t = []).
    { apply orb_false_iff in E4. destruct E4 as [_ E4]. destruct (some (t_destination_address t)) eqn:B; [|apply N, some_false, B].
      apply some_false. destruct (some (t_destination_address_exclude t)); [discriminate E4|reflexivity]. }
    assert (L0 : forall inc exc, exc = [] -> excludable inc exc -> left_of inc exc inc).
    { intros inc exc -> E. split; [exact E|]. split; [|reflexivity]. intros x. rewrite covered_nil. tauto. }
    constructor; auto using same_else_refl.
    + intros K. destruct (V1 K) as [W1 W2]. split; [exact W2|]. split; [exact W1|]. split; auto.
    all: try solve [intros K; destruct (V2 K) as (W1 & W2 & W3); auto].
Qed.
