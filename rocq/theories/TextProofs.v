(** Proofs about the texts of addresses. *)
From Coq Require Import Lia ZifyBool ZifyNat.
From Verif Require Import SpecText SpecSum IPFacts BaseFacts PyStrFacts SumProofs.
Local Open Scope string_scope.
Local Open Scope list_scope.
Local Open Scope Z_scope.

Lemma forall_char_has f s c : forall_char f s = true -> f c = false -> has_char c s = false.
Proof.
  induction s as [|d s IH]; cbn [forall_char has_char]; [reflexivity|]. intros H N.
  apply andb_true_iff in H. destruct H as (H1 & H2). apply orb_false_iff. split; [|auto].
  apply Ascii.eqb_neq. congruence.
Qed.
Lemma forall_char_impl f g s : (forall c, f c = true -> g c = true) -> forall_char f s = true -> forall_char g s = true.
Proof.
  intros I. induction s as [|d s IH]; cbn [forall_char]; [reflexivity|]. intros H.
  apply andb_true_iff in H. destruct H as (H1 & H2). apply andb_true_iff. auto.
Qed.

Lemma digit_char_digit d : 0 <= d < 10 -> is_digit (digit_char d) = true.
Proof.
  intros H. assert (E : d = 0 \/ d = 1 \/ d = 2 \/ d = 3 \/ d = 4 \/ d = 5 \/ d = 6 \/ d = 7 \/ d = 8 \/ d = 9) by lia.
  repeat (destruct E as [->|E]; [reflexivity|]). subst. reflexivity.
Qed.
Lemma dec_loop_digits fuel : forall n acc, 0 <= n -> forall_char is_digit acc = true ->
  forall_char is_digit (dec_loop fuel n acc) = true.
Proof.
  induction fuel as [|fuel IH]; intros n acc Hn Ha; cbn [dec_loop]; [exact Ha|].
  assert (forall_char is_digit (String (digit_char (n mod 10)) acc) = true).
  { cbn [forall_char]. rewrite digit_char_digit by (apply Z.mod_pos_bound; lia). exact Ha. }
  destruct (n / 10 =? 0); [assumption|]. apply IH; [apply Z.div_pos; lia|assumption].
Qed.
Lemma dec_digits n : 0 <= n -> forall_char is_digit (dec n) = true.
Proof.
  intros H. unfold dec. destruct (n <? 0) eqn:E; [lia|]. apply dec_loop_digits; [assumption|reflexivity].
Qed.
Lemma dec_nonempty n : dec n <> "".
Proof.
  unfold dec. destruct (n <? 0); [discriminate|]. cbn [dec_loop].
  assert (L : forall f m c a, dec_loop f m (String c a) <> "").
  { induction f as [|f IH]; intros m c a; cbn [dec_loop]; [discriminate|]. destruct (m / 10 =? 0); [discriminate|]. apply IH. }
  destruct (n / 10 =? 0); [discriminate|]. apply L.
Qed.
Lemma digit_ws c : is_digit c = true -> is_ws c = false.
Proof.
  unfold is_digit, is_ws. intros H. apply not_true_iff_false. intros W. 
  revert H W. destruct c as [[] [] [] [] [] [] [] []]; vm_compute; congruence.
Qed.
Lemma dec_no_ws n : 0 <= n -> no_ws (dec n).
Proof.
  intros H. unfold no_ws. eapply forall_char_impl; [|apply dec_digits, H].
  intros c C. cbn beta. rewrite (digit_ws c C). reflexivity.
Qed.

(** Dotted quads *)
Lemma numeral_nodot s v c : numeral_value s = Some v -> is_digit c = false -> has_char c s = false.
Proof.
  intros N D. assert (forall t acc w, digits_value t acc = Some w -> has_char c t = false).
  { induction t as [|d t IH]; cbn [digits_value has_char]; [reflexivity|]. intros acc w H.
    destruct (digit_value d) as [k|] eqn:E; [|discriminate]. apply orb_false_iff. split; [|eauto].
    apply Ascii.eqb_neq. intros ->. revert D E. destruct c as [[] [] [] [] [] [] [] []]; vm_compute; congruence. }
  destruct s as [|d s]; [discriminate|]. unfold numeral_value in N. eauto.
Qed.
Lemma denotes_quad_value s n : denotes_quad s n -> quad_value s = Some n.
Proof.
  intros (a & b & c & d & A & B & C & D & -> & HA & HB & HC & HD & La & Lb & Lc & Ld & ->).
  unfold quad_value. change ("." ++ B ++ "." ++ C ++ "." ++ D)%string with (String "." (B ++ String "." (C ++ String "." D))).
  rewrite (split_char_app "." A) by (eapply numeral_nodot; [exact HA|reflexivity]).
  rewrite (split_char_app "." B) by (eapply numeral_nodot; [exact HB|reflexivity]).
  rewrite (split_char_app "." C) by (eapply numeral_nodot; [exact HC|reflexivity]).
  rewrite (split_char_none "." D) by (eapply numeral_nodot; [exact HD|reflexivity]).
  cbn [map]. rewrite HA, HB, HC, HD.
  replace ((a <? 256) && (b <? 256) && (c <? 256) && (d <? 256)) with true by lia. reflexivity.
Qed.
Lemma quad_text_value n : quad_value (int32_to_dotted_quad n) = Some (n mod 2 ^ 32).
Proof. apply denotes_quad_value, quad_denotes. Qed.

(** Hexadecimal groups *)
Definition is_hexc (c : ascii) : bool := match hex_digit_value c with Some _ => true | None => false end.
Lemma hex_char_value d : 0 <= d < 16 -> hex_digit_value (hex_char d) = Some d.
Proof.
  intros H. assert (E : d = 0 \/ d = 1 \/ d = 2 \/ d = 3 \/ d = 4 \/ d = 5 \/ d = 6 \/ d = 7 \/ d = 8 \/ d = 9
    \/ d = 10 \/ d = 11 \/ d = 12 \/ d = 13 \/ d = 14 \/ d = 15) by lia.
  repeat (destruct E as [->|E]; [reflexivity|]). subst. reflexivity.
Qed.
Lemma hex_digits_acc s : forall a b v, hex_digits_value s a = Some v ->
  hex_digits_value s b = Some (v + (b - a) * 16 ^ Z.of_nat (String.length s)).
Proof.
  induction s as [|c s IH]; intros a b v H.
  - cbn [hex_digits_value String.length] in *. injection H as <-. f_equal. rewrite Z.pow_0_r. lia.
  - cbn [hex_digits_value String.length] in *. destruct (hex_digit_value c) as [d|]; [|discriminate].
    rewrite (IH _ (b * 16 + d) _ H). f_equal. rewrite Nat2Z.inj_succ, Z.pow_succ_r by lia. ring.
Qed.
Lemma hex_loop_value : forall fuel n acc a, 0 <= n -> n < 2 ^ Z.of_nat fuel ->
  hex_digits_value acc 0 = Some a ->
  (hex_digits_value (hex_loop fuel n acc) 0 = Some (n * 16 ^ Z.of_nat (String.length acc) + a) /\
   hex_loop fuel n acc <> ""%string) \/ fuel = O.
Proof.
  induction fuel as [|fuel IH]; intros n acc a Hn Hf Ha; [right; reflexivity|left].
  cbn [hex_loop].
  assert (Hm : 0 <= n mod 16 < 16) by (apply Z.mod_pos_bound; lia).
  assert (Hd : n = 16 * (n / 16) + n mod 16) by (apply Z.div_mod; lia).
  assert (Hq : 0 <= n / 16) by (apply Z.div_pos; lia).
  set (acc' := String (hex_char (n mod 16)) acc).
  assert (Ha' : hex_digits_value acc' 0 = Some (n mod 16 * 16 ^ Z.of_nat (String.length acc) + a)).
  { unfold acc'. cbn [hex_digits_value]. rewrite hex_char_value by assumption.
    rewrite (hex_digits_acc acc 0 (0 * 16 + n mod 16) a Ha). f_equal. ring. }
  destruct (n / 16 =? 0) eqn:E.
  - apply Z.eqb_eq in E. split; [|discriminate]. rewrite Ha'. f_equal. rewrite Hd at 2. rewrite E. ring_simplify. reflexivity.
  - apply Z.eqb_neq in E.
    assert (Hf' : n / 16 < 2 ^ Z.of_nat fuel).
    { rewrite Nat2Z.inj_succ, Z.pow_succ_r in Hf by lia. nia. }
    destruct (IH (n / 16) acc' _ Hq Hf' Ha') as [[H1 H2]|H].
    + split; [|assumption]. rewrite H1. f_equal. unfold acc'. cbn [String.length].
      rewrite Nat2Z.inj_succ, Z.pow_succ_r by lia. rewrite Hd at 3. ring.
    + subst fuel. simpl in Hf'. lia.
Qed.
Lemma hex_value n : 0 <= n < 65536 -> group_value (hex n) = Some n.
Proof.
  intros Hn. unfold hex.
  destruct (hex_loop_value (S (Z.to_nat (Z.log2 n))) n "" 0 (proj1 Hn)) as [[H1 H2]|H]; [|reflexivity| |discriminate].
  - rewrite Nat2Z.inj_succ, Z2Nat.id by apply Z.log2_nonneg.
    destruct (Z.eq_dec n 0) as [->|Hne]; [reflexivity|]. apply Z.log2_spec. lia.
  - unfold group_value. destruct (hex_loop _ n "") eqn:Ed; [congruence|]. rewrite H1.
    cbn [String.length]. rewrite Z.pow_0_r. replace (n * 1 + 0) with n by lia.
    destruct (n <? 65536) eqn:E; [reflexivity|lia].
Qed.
Lemma group_chars s v : group_value s = Some v -> forall_char is_hexc s = true /\ s <> "".
Proof.
  intros N. assert (forall t acc w, hex_digits_value t acc = Some w -> forall_char is_hexc t = true).
  { induction t as [|d t IH]; cbn [hex_digits_value forall_char]; [reflexivity|]. intros acc w H.
    unfold is_hexc at 1. destruct (hex_digit_value d) as [k|] eqn:E; [|discriminate]. simpl. eauto. }
  destruct s as [|d s]; [discriminate|]. unfold group_value in N. split; [|discriminate].
  destruct (hex_digits_value (String d s) 0) eqn:E; [|discriminate]. eauto.
Qed.

(** Texts with groups *)
Lemma join_cons2 sep x y l : join sep (x :: y :: l) = (x ++ sep ++ join sep (y :: l))%string.
Proof. reflexivity. Qed.
Definition group_list (l : list string) (vs : list Z) : Prop := Forall2 (fun s v => group_value s = Some v) l vs.
Lemma Forall2_length {A B} (R : A -> B -> Prop) l m : Forall2 R l m -> List.length l = List.length m.
Proof. induction 1; simpl; congruence. Qed.
Arguments Forall2_length {A B R l m}.
Lemma group_nocolon s v : group_value s = Some v -> has_char ":" s = false.
Proof. intros H. eapply forall_char_has; [apply (group_chars s v H)|reflexivity]. Qed.
Lemma split_join_colon : forall l vs, group_list l vs -> l <> [] -> split_char ":" (join ":" l) = l.
Proof.
  induction l as [|x l IH]; intros vs H N; [congruence|]. inversion H as [|? v ? vs' G R]; subst.
  destruct l as [|y l].
  - cbn [join]. apply split_char_none. eapply group_nocolon, G.
  - rewrite join_cons2. change (":" ++ join ":" (y :: l))%string with (String ":" (join ":" (y :: l))).
    rewrite split_char_app by (eapply group_nocolon, G). f_equal. eapply IH; [exact R|discriminate].
Qed.
Lemma all_some_groups : forall l vs, group_list l vs -> all_some (map group_value l) = Some vs.
Proof.
  induction l as [|x l IH]; intros vs H; inversion H as [|? v ? vs' G R]; subst; cbn [map all_some]; [reflexivity|].
  rewrite G, (IH _ R). reflexivity.
Qed.
Lemma join_nonempty l vs : group_list l vs -> l <> [] -> join ":" l <> "".
Proof.
  intros H N. destruct l as [|x l]; [congruence|]. inversion H as [|? v ? vs' G R]; subst.
  apply group_chars in G. destruct G as (_ & G). destruct x as [|c x]; [congruence|].
  destruct l; cbn [join append]; discriminate.
Qed.
Lemma groups_join l vs : group_list l vs -> groups (join ":" l) = Some vs.
Proof.
  intros H. destruct l as [|x l].
  - inversion H. reflexivity.
  - pose proof (join_nonempty _ _ H ltac:(discriminate)) as N. unfold groups.
    destruct (join ":" (x :: l)) as [|c r] eqn:E; [congruence|]. rewrite <- E.
    rewrite (split_join_colon _ _ H) by discriminate. apply all_some_groups, H.
Qed.

(** Cutting at the gap *)
Lemma cut_gap_word w s : has_char ":" w = false -> w <> "" ->
  cut_gap (append w s) = match cut_gap s with Some (a, b) => Some (append w a, b) | None => None end.
Proof.
  intros H _. induction w as [|c w IH].
  - destruct (cut_gap s) as [[a b]|] eqn:E; cbn [append]; rewrite ?E; reflexivity.
  - cbn [has_char] in H. apply orb_false_iff in H. destruct H as (Hc & Hw). cbn [append cut_gap].
    replace (String.prefix "::" (String c (append w s))) with false.
    2:{ symmetry. cbn [String.prefix]. destruct (ascii_dec ":" c) as [E|_]; [|reflexivity].
        subst c. discriminate Hc. }
    rewrite (IH Hw). destruct (cut_gap s) as [[a b]|]; reflexivity.
Qed.
Definition starts_solid (s : string) : Prop := match s with String c _ => Ascii.eqb c ":" = false | EmptyString => True end.
Lemma cut_gap_colon s : starts_solid s ->
  cut_gap (String ":" s) = match cut_gap s with Some (a, b) => Some (String ":" a, b) | None => None end.
Proof.
  intros H. destruct s as [|c s]; [reflexivity|]. cbn [starts_solid] in H.
  replace (cut_gap (String ":" (String c s))) with
    (if String.prefix "::" (String ":" (String c s)) then Some (""%string, s)
     else match cut_gap (String c s) with Some (a, b) => Some (String ":" a, b) | None => None end) by reflexivity.
  replace (String.prefix "::" (String ":" (String c s))) with false; [reflexivity|].
  symmetry. cbn [String.prefix]. destruct (ascii_dec ":" ":") as [_|N]; [|congruence].
  destruct (ascii_dec ":" c) as [E|_]; [|reflexivity]. subst c. discriminate H.
Qed.
Lemma group_starts s r v : group_value s = Some v -> starts_solid (append s r).
Proof.
  intros G. destruct (group_chars _ _ G) as (_ & N). pose proof (group_nocolon _ _ G) as C.
  destruct s as [|c s]; [congruence|]. cbn [has_char] in C. apply orb_false_iff in C. apply C.
Qed.
Lemma cut_join : forall l vs r, group_list l vs -> l <> [] ->
  cut_gap (append (join ":" l) r) = match cut_gap r with Some (a, b) => Some (append (join ":" l) a, b) | None => None end.
Proof.
  induction l as [|x l IH]; intros vs r H N; [congruence|]. inversion H as [|? v ? vs' G R]; subst.
  destruct l as [|y l].
  - cbn [join]. apply cut_gap_word; [eapply group_nocolon, G|apply (group_chars _ _ G)].
  - rewrite join_cons2, !str_app_assoc.
    rewrite cut_gap_word; [|eapply group_nocolon, G|apply (group_chars _ _ G)].
    change (append ":" (append (join ":" (y :: l)) r)) with (String ":" (append (join ":" (y :: l)) r)).
    rewrite cut_gap_colon.
    + rewrite (IH _ r R) by discriminate. destruct (cut_gap r) as [[a b]|]; [|reflexivity].
      rewrite !str_app_assoc. reflexivity.
    + inversion R as [|? w ? ws Gy _]; subst. destruct l; cbn [join]; rewrite ?str_app_assoc; eapply group_starts, Gy.
Qed.
Lemma v6_value_full l vs : group_list l vs -> List.length l = 8%nat -> v6_value (join ":" l) = Some (of_groups vs).
Proof.
  intros H L. unfold v6_value. assert (l <> []) by (intros ->; discriminate).
  rewrite <- (str_app_nil (join ":" l)) at 1. rewrite (cut_join _ _ "" H) by assumption. cbn [cut_gap].
  rewrite (groups_join _ _ H). rewrite <- (Forall2_length H), L. reflexivity.
Qed.
Lemma v6_value_gap l vs r ws : group_list l vs -> group_list r ws -> (List.length l + List.length r <= 7)%nat ->
  v6_value (append (join ":" l) (append "::" (join ":" r)))
  = Some (of_groups (vs ++ repeat 0 (8 - List.length vs - List.length ws) ++ ws)).
Proof.
  intros H1 H2 L. unfold v6_value.
  assert (C : cut_gap (append "::" (join ":" r)) = Some (""%string, join ":" r)).
  { cbn [append cut_gap String.prefix]. destruct (ascii_dec ":" ":"); [|congruence]. destruct (join ":" r); reflexivity. }
  assert (K : cut_gap (append (join ":" l) (append "::" (join ":" r))) = Some (join ":" l, join ":" r)).
  { destruct l as [|x l]; [exact C|]. rewrite (cut_join _ _ _ H1) by discriminate. rewrite C, str_app_nil. reflexivity. }
  rewrite K, (groups_join _ _ H1), (groups_join _ _ H2).
  rewrite <- (Forall2_length H1), <- (Forall2_length H2). destruct (_ <=? _)%nat eqn:E; [reflexivity|lia].
Qed.

(** The longest run *)
Definition zero_run (l : list string) (s n : Z) : Prop :=
  0 <= s /\ s + n <= Zlen l /\ forall k, s <= k < s + n -> nth_error l (Z.to_nat k) = Some "0"%string.
Lemma best_run_spec full : forall l i start len bstart blen,
  0 <= i -> (exists pre, full = pre ++ l /\ Zlen pre = i) ->
  (start = -1 /\ len = 0 \/ start + len = i /\ 1 <= len /\ zero_run full start len) ->
  (blen = 0 \/ 1 <= blen /\ zero_run full bstart blen) ->
  let (s, n) := best_run l i start len bstart blen in n = 0 \/ 1 <= n /\ zero_run full s n.
Proof.
  induction l as [|h l IH]; intros i start len bstart blen Hi Hp Hc Hb; cbn [best_run]; [exact Hb|].
  destruct Hp as (pre & Hf & Hl).
  assert (Hp' : exists pre, full = pre ++ l /\ Zlen pre = i + 1).
  { exists (pre ++ [h]). split; [rewrite Hf, <- app_assoc; reflexivity|]. unfold Zlen in *. rewrite app_length. simpl. lia. }
  destruct (String.eqb_spec h "0") as [->|N].
  - set (start' := if start =? -1 then i else start).
    assert (Z' : zero_run full start' (len + 1)).
    { assert (At : nth_error full (Z.to_nat i) = Some "0"%string).
      { rewrite Hf. unfold Zlen in Hl. rewrite nth_error_app2 by lia.
        replace (Z.to_nat i - List.length pre)%nat with O by lia. reflexivity. }
      assert (Lf : Zlen full = i + 1 + Zlen l) by (rewrite Hf; unfold Zlen in *; rewrite app_length; simpl; lia).
      assert (0 <= Zlen l) by (unfold Zlen; lia).
      destruct Hc as [(-> & ->)|(E & L & (Z1 & Z2 & Z3))].
      - unfold start'. rewrite Z.eqb_refl. split; [lia|]. split; [lia|]. intros k K. replace k with i by lia. exact At.
      - unfold start'. destruct (start =? -1) eqn:X; [lia|]. split; [lia|]. split; [lia|].
        intros k K. destruct (Z.eq_dec k i) as [->|]; [exact At|]. apply Z3. lia. }
    assert (Hc' : start' = -1 /\ len + 1 = 0 \/ start' + (len + 1) = i + 1 /\ 1 <= len + 1 /\ zero_run full start' (len + 1)).
    { right. split; [|split; [|exact Z']]. 
      - unfold start'. destruct Hc as [(-> & ->)|(E & L & (Z1 & _))]; [rewrite Z.eqb_refl; lia|].
        destruct (start =? -1) eqn:X; lia.
      - destruct Hc as [(-> & ->)|(E & L & _)]; lia. }
    destruct (blen <? len + 1) eqn:B.
    + apply IH; [lia|exact Hp'|exact Hc'|]. right. split; [|exact Z']. destruct Hc' as [(_ & X)|(_ & X & _)]; lia.
    + apply IH; [lia|exact Hp'|exact Hc'|exact Hb].
  - apply IH; [lia|exact Hp'|left; split; reflexivity|exact Hb].
Qed.

Lemma nth_firstn_skipn {A} (x : A) n : forall l, (forall k, (k < n)%nat -> nth_error l k = Some x) ->
  l = repeat x n ++ skipn n l.
Proof.
  induction n as [|n IH]; intros l H; [reflexivity|]. destruct l as [|y l]; [specialize (H 0%nat); discriminate H; lia|].
  cbn [repeat app skipn]. pose proof (H 0%nat ltac:(lia)) as E. injection E as ->. f_equal.
  apply IH. intros k K. apply (H (S k)). lia.
Qed.
Lemma skipn_skipn' {A} (a b : nat) : forall l : list A, skipn a (skipn b l) = skipn (b + a) l.
Proof.
  induction b as [|b IH]; intros l; [reflexivity|]. destruct l as [|x l]; [rewrite skipn_nil; reflexivity|]. apply IH.
Qed.
Lemma nth_error_skipn' {A} (a k : nat) : forall l : list A, nth_error (skipn a l) k = nth_error l (a + k).
Proof.
  induction a as [|a IH]; intros l; [reflexivity|]. destruct l as [|x l]; [destruct k; reflexivity|]. apply IH.
Qed.
Lemma zero_run_split l s n : zero_run l s n -> 0 <= n ->
  l = firstn (Z.to_nat s) l ++ repeat "0"%string (Z.to_nat n) ++ skipn (Z.to_nat (s + n)) l.
Proof.
  intros (H1 & H2 & H3) Hn. unfold Zlen in H2.
  rewrite <- (firstn_skipn (Z.to_nat s) l) at 1. f_equal.
  rewrite (nth_firstn_skipn "0"%string (Z.to_nat n) (skipn (Z.to_nat s) l)) at 1.
  - f_equal. rewrite skipn_skipn'. f_equal. lia.
  - intros k K. rewrite nth_error_skipn'. rewrite <- (H3 (s + Z.of_nat k)) by lia. f_equal. lia.
Qed.

Lemma hextets_range n h : In h (hextets n) -> 0 <= h < 65536.
Proof.
  unfold hextets. intros I. apply in_map_iff in I. destruct I as (k & <- & _).
  change 65535 with (Z.ones 16). rewrite Z.land_ones by lia. apply Z.mod_pos_bound. lia.
Qed.
Lemma hextet_mod n k : 0 <= k -> Z.land (Z.shiftr n k) 65535 = (n / 2 ^ k) mod 65536.
Proof.
  intros Hk. rewrite Z.shiftr_div_pow2 by assumption. change 65535 with (Z.ones 16). apply Z.land_ones. lia.
Qed.
Lemma hextets_value n : of_groups (hextets n) = n mod 2 ^ 128.
Proof.
  unfold of_groups, hextets. cbn [map fold_left]. rewrite !hextet_mod by lia.
  assert (Step : forall k, 0 <= k -> n / 2 ^ k = n / 2 ^ (k + 16) * 65536 + (n / 2 ^ k) mod 65536).
  { intros k Hk. rewrite Z.pow_add_r by lia. rewrite <- Z.div_div by (try apply Z.pow_nonzero; try apply Z.pow_pos_nonneg; lia).
    change (2 ^ 16) with 65536. rewrite (Z.mul_comm _ 65536). apply Z.div_mod. lia. }
  pose proof (Step 0 ltac:(lia)) as S0. pose proof (Step 16 ltac:(lia)) as S1. pose proof (Step 32 ltac:(lia)) as S2.
  pose proof (Step 48 ltac:(lia)) as S3. pose proof (Step 64 ltac:(lia)) as S4. pose proof (Step 80 ltac:(lia)) as S5.
  pose proof (Step 96 ltac:(lia)) as S6. pose proof (Step 112 ltac:(lia)) as S7.
  cbn [Z.add Pos.add Pos.succ Pos.add_carry] in S0, S1, S2, S3, S4, S5, S6, S7.
  rewrite Z.pow_0_r, Z.div_1_r in S0.
  pose proof (Z.div_mod n (2 ^ 128) ltac:(lia)) as D. change (2 ^ 0) with 1. rewrite Z.div_1_r.
  change (2 ^ 128) with 340282366920938463463374607431768211456 in *.
  revert D. generalize (n mod 340282366920938463463374607431768211456). intros m D.
  revert S0 S1 S2 S3 S4 S5 S6 S7 D.
  generalize (n mod 65536), ((n / 2 ^ 16) mod 65536), ((n / 2 ^ 32) mod 65536), ((n / 2 ^ 48) mod 65536),
    ((n / 2 ^ 64) mod 65536), ((n / 2 ^ 80) mod 65536), ((n / 2 ^ 96) mod 65536), ((n / 2 ^ 112) mod 65536).
  generalize (n / 2 ^ 16), (n / 2 ^ 32), (n / 2 ^ 48), (n / 2 ^ 64), (n / 2 ^ 80), (n / 2 ^ 96), (n / 2 ^ 112),
    (n / 340282366920938463463374607431768211456).
  intros. lia.
Qed.
Lemma hextets_groups n : group_list (map hex (hextets n)) (hextets n).
Proof.
  pose proof (hextets_range n) as R. induction (hextets n) as [|h l IH]; cbn [map]; constructor.
  - apply hex_value, R. left. reflexivity.
  - apply IH. intros x I. apply R. right. exact I.
Qed.
Lemma group_list_app a b vs : group_list (a ++ b) vs ->
  exists v1 v2, vs = v1 ++ v2 /\ group_list a v1 /\ group_list b v2.
Proof. intros H. apply Forall2_app_inv_l in H. destruct H as (x & y & H1 & H2 & ->). eauto. Qed.
Lemma group_list_zeros n vs : group_list (repeat "0"%string n) vs -> vs = repeat 0 n.
Proof.
  revert vs. induction n as [|n IH]; intros vs H; inversion H as [|? v ? ws G R]; subst; cbn [repeat]; [reflexivity|].
  injection G as <-. f_equal. apply IH, R.
Qed.
Lemma join_gap a b : a <> [] -> b <> [] -> join ":" (a ++ ""%string :: b) = (join ":" a ++ "::" ++ join ":" b)%string.
Proof.
  intros Na Nb. induction a as [|x a IH]; [congruence|]. destruct a as [|y a].
  - cbn [app join]. destruct b as [|z b]; [congruence|]. reflexivity.
  - change ((x :: y :: a) ++ ""%string :: b) with (x :: y :: (a ++ ""%string :: b)). rewrite !join_cons2.
    change (y :: a ++ ""%string :: b) with ((y :: a) ++ ""%string :: b). rewrite IH by discriminate. rewrite !str_app_assoc. reflexivity.
Qed.
Lemma v6_text_value n : v6_value (join ":" (compress_hextets (map hex (hextets n)))) = Some (n mod 2 ^ 128).
Proof.
  pose proof (hextets_groups n) as G. rewrite <- hextets_value.
  assert (L : List.length (map hex (hextets n)) = 8%nat) by reflexivity.
  unfold compress_hextets. set (h := map hex (hextets n)) in *.
  pose proof (best_run_spec h h 0 (-1) 0 (-1) 0 ltac:(lia) ltac:(exists []; split; reflexivity)
    ltac:(left; split; reflexivity) ltac:(left; reflexivity)) as B.
  destruct (best_run h 0 (-1) 0 (-1) 0) as [s k]. destruct (1 <? k) eqn:K.
  2:{ apply v6_value_full; assumption. }
  destruct B as [B|(_ & Z1)]; [lia|]. pose proof (zero_run_split h s k Z1 ltac:(lia)) as Sp.
  destruct Z1 as (Hs & He & _). unfold Zlen in He. rewrite L in He.
  set (a := firstn (Z.to_nat s) h) in *. set (b := skipn (Z.to_nat (s + k)) h) in *.
  assert (La : List.length a = Z.to_nat s) by (unfold a; rewrite firstn_length; lia).
  assert (Lb : List.length b = (8 - Z.to_nat (s + k))%nat) by (unfold b; rewrite skipn_length; lia).
  assert (T : join ":" (let h0 := if s + k =? Zlen h then h ++ [""%string] else h in
      let h1 := firstn (Z.to_nat s) h0 ++ [""%string] ++ skipn (Z.to_nat (s + k)) h0 in
      if s =? 0 then ""%string :: h1 else h1) = (join ":" a ++ "::" ++ join ":" b)%string).
  { cbv zeta. unfold Zlen. rewrite L.
    assert (F : firstn (Z.to_nat s) (if s + k =? Z.of_nat 8 then h ++ [""%string] else h) = a).
    { destruct (s + k =? Z.of_nat 8) eqn:E; [|reflexivity]. unfold a. rewrite firstn_app.
      replace (Z.to_nat s - List.length h)%nat with O by lia. cbn [firstn]. apply app_nil_r. }
    rewrite F.
    assert (Sk : skipn (Z.to_nat (s + k)) (if s + k =? Z.of_nat 8 then h ++ [""%string] else h)
                 = if s + k =? Z.of_nat 8 then [""%string] else b).
    { destruct (s + k =? Z.of_nat 8) eqn:E; [|reflexivity]. rewrite skipn_app.
      rewrite skipn_all2 by lia. replace (Z.to_nat (s + k) - List.length h)%nat with O by lia. reflexivity. }
    rewrite Sk. destruct (s + k =? Z.of_nat 8) eqn:E.
    - assert (b = []) as -> by (apply length_zero_iff_nil; lia). cbn [join]. destruct (s =? 0) eqn:E0.
      + assert (a = []) as -> by (apply length_zero_iff_nil; lia). reflexivity.
      + assert (a <> []) as Na by (intros X; apply (f_equal (@List.length string)) in X; cbn [List.length] in X; lia).
        cbn [app]. rewrite join_gap by (assumption || discriminate). cbn [join]. rewrite !str_app_nil. reflexivity.
    - assert (b <> []) as Nb by (intros X; apply (f_equal (@List.length string)) in X; cbn [List.length] in X; lia). destruct (s =? 0) eqn:E0.
      + assert (a = []) as -> by (apply length_zero_iff_nil; lia). cbn [app join append].
        destruct b as [|z b']; [congruence|]. reflexivity.
      + assert (a <> []) as Na by (intros X; rewrite X in La; simpl in La; lia).
        cbn [app]. apply join_gap; assumption. }
  etransitivity; [exact (f_equal v6_value T)|]. rewrite Sp in G. apply group_list_app in G. destruct G as (v1 & v2 & Ev & G1 & G2).
  apply group_list_app in G2. destruct G2 as (v3 & v4 & -> & G3 & G4). apply group_list_zeros in G3.
  rewrite (v6_value_gap _ _ _ _ G1 G4) by lia. f_equal. f_equal. rewrite Ev, G3. f_equal. f_equal. f_equal.
  rewrite <- (Forall2_length G1), <- (Forall2_length G4). lia.
Qed.

Lemma addr_text_value v a : 0 <= a < 2 ^ width v -> ip_value v (addr_text v a) = Some a.
Proof.
  intros H. destruct v; cbn [ip_value addr_text width] in *.
  - rewrite quad_text_value. f_equal. apply Z.mod_small. exact H.
  - rewrite v6_text_value. f_equal. apply Z.mod_small. exact H.
Qed.

(** Characters of an address text *)
Definition is_addrc (c : ascii) : bool := is_hexc c || Ascii.eqb c ":" || Ascii.eqb c ".".
Lemma forall_char_join f sep l : forall_char f sep = true -> (forall x, In x l -> forall_char f x = true) ->
  forall_char f (join sep l) = true.
Proof.
  intros Hs. induction l as [|x l IH]; intros H; [reflexivity|]. destruct l as [|y l].
  - apply H. left. reflexivity.
  - rewrite join_cons2, !forall_char_app, (H x (or_introl eq_refl)), Hs, IH; [reflexivity|].
    intros z I. apply H. right. exact I.
Qed.
Lemma digit_addrc c : is_digit c = true -> is_addrc c = true.
Proof. destruct c as [[] [] [] [] [] [] [] []]; vm_compute; congruence. Qed.
Lemma quad_chars n : forall_char is_addrc (int32_to_dotted_quad n) = true.
Proof.
  unfold int32_to_dotted_quad. apply forall_char_join; [reflexivity|]. intros x I.
  assert (forall k, forall_char is_addrc (dec (Z.land (Z.shiftr n k) 255)) = true) as D.
  { intros k. eapply forall_char_impl; [apply digit_addrc|]. apply dec_digits. apply Z.land_nonneg. right. lia. }
  destruct I as [<-|[<-|[<-|[<-|[]]]]]; apply D.
Qed.
Lemma hex_chars n : 0 <= n < 65536 -> forall_char is_addrc (hex n) = true.
Proof.
  intros H. eapply forall_char_impl; [|apply (group_chars _ _ (hex_value n H))]. intros c C.
  unfold is_addrc. rewrite C. reflexivity.
Qed.
Lemma firstn_In {A} n : forall (l : list A) x, In x (firstn n l) -> In x l.
Proof. induction n as [|n IH]; intros [|y l] x I; simpl in *; try tauto. destruct I; auto. Qed.
Lemma skipn_In {A} n : forall (l : list A) x, In x (skipn n l) -> In x l.
Proof. induction n as [|n IH]; intros [|y l] x I; simpl in *; try tauto. auto. Qed.
Lemma compress_in l x : In x (compress_hextets l) -> x = ""%string \/ In x l.
Proof.
  unfold compress_hextets. destruct (best_run l 0 (-1) 0 (-1) 0) as [s k]. destruct (1 <? k); [|auto].
  cbv zeta. set (h := if s + k =? Zlen l then l ++ [""%string] else l).
  assert (Hh : forall y, In y h -> y = ""%string \/ In y l).
  { unfold h. destruct (s + k =? Zlen l); intros y I; [|auto]. apply in_app_or in I.
    destruct I as [I|[<-|[]]]; auto. }
  assert (X : forall y, In y (firstn (Z.to_nat s) h ++ [""%string] ++ skipn (Z.to_nat (s + k)) h) -> y = ""%string \/ In y l).
  { intros y I. apply in_app_or in I. destruct I as [I|[<-|I]]; [apply firstn_In in I| |apply skipn_In in I]; auto. }
  destruct (s =? 0); [intros [<-|I]; auto|apply X].
Qed.
Lemma addr_text_chars v a : forall_char is_addrc (addr_text v a) = true.
Proof.
  destruct v; cbn [addr_text]; [apply quad_chars|]. apply forall_char_join; [reflexivity|].
  intros x I. apply compress_in in I. destruct I as [->|I]; [reflexivity|].
  apply in_map_iff in I. destruct I as (h & <- & I). apply hex_chars, (hextets_range a), I.
Qed.
Lemma addrc_ws c : is_addrc c = true -> is_ws c = false.
Proof. destruct c as [[] [] [] [] [] [] [] []]; vm_compute; congruence. Qed.
Lemma addr_text_no_ws v a : no_ws (addr_text v a).
Proof.
  unfold no_ws. eapply forall_char_impl; [|apply addr_text_chars]. intros c C. cbn beta. rewrite (addrc_ws c C). reflexivity.
Qed.
Lemma addr_text_nonempty v a : 0 <= a < 2 ^ width v -> addr_text v a <> "".
Proof.
  intros H E. pose proof (addr_text_value v a H) as X. rewrite E in X. destruct v; discriminate X.
Qed.
Lemma addr_text_noslash v a : has_char "/" (addr_text v a) = false.
Proof. eapply forall_char_has; [apply addr_text_chars|reflexivity]. Qed.

(** What the printed networks cover *)
Lemma prefix_text_says n x : valid n -> 0 <= x < 2 ^ width (nver n) ->
  prefix_says (nver n) (prefixlen_text n) x <-> covers n (nver n, x).
Proof.
  intros (Hl & Ha & Hd) Hx. unfold prefix_says, prefixlen_text.
  change (append "/" (dec (nlen n))) with (String "/" (dec (nlen n))).
  pose proof (addr_text_noslash (nver n) (naddr n)) as NS.
  rewrite (before_char_app "/" _ _ NS), (after_char_app "/" _ _ NS).
  cbn [before_char after_char]. change (Ascii.eqb "/" "/") with true. cbv iota. rewrite str_app_nil.
  unfold covers. cbn [fst snd]. set (h := width (nver n) - nlen n).
  assert (Hp : 0 < 2 ^ h) by (apply Z.pow_pos_nonneg; unfold h; lia).
  assert (Hsz : size n = 2 ^ h) by reflexivity. rewrite Hsz in *. destruct Hd as (q & Hq).
  assert (Ea : naddr n / 2 ^ h = q) by (rewrite Hq; apply Z.div_mul; lia).
  assert (K : x / 2 ^ h = naddr n / 2 ^ h <-> naddr n <= x < naddr n + 2 ^ h).
  { rewrite Ea. split.
    - intros E. pose proof (Z.div_mod x (2 ^ h) ltac:(lia)) as D. pose proof (Z.mod_pos_bound x (2 ^ h) Hp). rewrite E in D. nia.
    - intros B. symmetry. apply Z.div_unique with (r := x - naddr n); nia. }
  split.
  - intros (a & len & _ & E1 & E2 & _ & E3). rewrite addr_text_value in E1 by assumption. injection E1 as <-.
    rewrite dec_value in E2 by lia. injection E2 as <-. split; [reflexivity|]. apply K. exact E3.
  - intros (_ & B). exists (naddr n), (nlen n). split; [reflexivity|]. split; [apply addr_text_value, Ha|].
    split; [apply dec_value; lia|]. split; [lia|]. apply K, B.
Qed.
Lemma testbit_out x k i : 0 <= x < 2 ^ k -> k <= i -> Z.testbit x i = false.
Proof.
  intros H K. destruct (Z.eq_dec x 0) as [->|N]; [apply Z.bits_0|]. apply Z.bits_above_log2; [lia|].
  apply Z.log2_lt_pow2; [lia|]. eapply Z.lt_le_trans; [apply H|]. 
  destruct (Z_le_gt_dec 0 k); [apply Z.pow_le_mono_r; lia|]. rewrite (Z.pow_neg_r 2 k) in H by lia. lia.
Qed.
Lemma wildcard_dsm q w a m x : quad_value q = Some a -> quad_value w = Some m -> 0 <= a < 2 ^ 32 -> 0 <= x < 2 ^ 32 ->
  forall d, daddr d = a -> (forall i, 0 <= i < 32 -> Z.testbit (dmask d) i = negb (Z.testbit m i)) ->
  wildcard_says q w x <-> dsm_match d x.
Proof.
  intros Hq Hw Ha Hx d Ed Em. unfold wildcard_says, dsm_match. split.
  - intros (a' & m' & E1 & E2 & H) i Hi Hb. rewrite Hq in E1. rewrite Hw in E2. injection E1 as <-. injection E2 as <-.
    rewrite Ed. destruct (Z_lt_ge_dec i 32) as [L|G].
    + apply H; [lia|]. rewrite Em in Hb by lia. apply negb_true_iff in Hb. exact Hb.
    + rewrite (testbit_out x 32 i), (testbit_out a 32 i) by lia. reflexivity.
  - intros H. exists a, m. split; [exact Hq|]. split; [exact Hw|]. intros i Hi Hb. rewrite <- Ed. apply H; [lia|].
    rewrite Em by lia. rewrite Hb. reflexivity.
Qed.
Lemma wildcard_net n x : nver n = V4 -> valid n -> 0 <= x < 2 ^ 32 ->
  wildcard_says (addr_text V4 (naddr n)) (addr_text V4 (hostmask n)) x <-> covers n (V4, x).
Proof.
  intros Hv V Hx. pose proof V as (Hl & Ha & Hd). rewrite Hv in *. cbn [width] in *.
  assert (Hh : hostmask n = Z.ones (32 - nlen n)).
  { rewrite hostmask_eq by (rewrite Hv; exact Hl). unfold size. rewrite Hv. rewrite Z.ones_equiv. cbn [width]. lia. }
  rewrite (wildcard_dsm _ _ (naddr n) (hostmask n) x) with (d := dsm_of_net n).
  - rewrite <- Hv. apply dsm_of_net_match; [exact V|rewrite Hv; exact Hx].
  - apply (addr_text_value V4), Ha.
  - apply (addr_text_value V4). rewrite Hh, Z.ones_equiv. cbn [width].
    assert (0 < 2 ^ (32 - nlen n)) by (apply Z.pow_pos_nonneg; lia).
    assert (2 ^ (32 - nlen n) <= 2 ^ 32) by (apply Z.pow_le_mono_r; lia). lia.
  - exact Ha.
  - exact Hx.
  - reflexivity.
  - intros i Hi. rewrite dsm_mask_bit by (rewrite ?Hv; cbn [width]; lia). rewrite Hv, Hh. cbn [width].
    rewrite Z.testbit_ones_nonneg by lia. lia.
Qed.
Lemma wildcard_pair d q w x : 0 <= daddr d -> 0 <= dmask d -> to_dotted_quad d true false = Ok (q, w) ->
  0 <= x < 2 ^ 32 -> wildcard_says q w x <-> dsm_match d x.
Proof.
  intros Ha Hm E Hx. destruct (to_dotted_quad_spec d true Ha Hm) as (P & Q).
  destruct (P q w E) as (Eq & Ew). destruct Q as (Q & _). destruct Q as (La & Lm); [eauto|].
  apply denotes_quad_value in Eq. apply denotes_quad_value in Ew.
  apply (wildcard_dsm q w _ _ x Eq Ew); [lia|exact Hx|reflexivity|].
  intros i Hi. replace (2 ^ 32 - 1 - dmask d) with (Z.lnot (dmask d) mod 2 ^ 32).
  - rewrite Z.mod_pow2_bits_low by lia. rewrite Z.lnot_spec by lia. rewrite negb_involutive. reflexivity.
  - symmetry. apply Z.mod_unique with (q := -1); unfold Z.lnot; lia.
Qed.
