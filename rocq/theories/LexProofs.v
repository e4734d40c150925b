(** Proofs about the lexer: a text laid out as the language says is read as its tokens. *)
From Coq Require Import Lia ZifyBool ZifyNat.
From Verif Require Import SpecParse PyStrFacts.
Local Open Scope list_scope.
Local Open Scope string_scope.

Ltac chars c := destruct c as [[] [] [] [] [] [] [] []].

(** ** Fuel *)

Lemma span_len f s : (String.length (snd (span f s)) <= String.length s)%nat.
Proof. induction s as [|c s IH]; cbn; [lia|]. destruct (f c); cbn; lia. Qed.
Lemma span_app f s : fst (span f s) ++ snd (span f s) = s.
Proof. induction s as [|c s IH]; cbn; [reflexivity|]. destruct (f c); cbn; [now rewrite IH|reflexivity]. Qed.
Lemma span_exact f w rest : forall_char f w = true -> ~ starts f rest -> span f (w ++ rest) = (w, rest).
Proof.
  intros Hw Hr. induction w as [|c w IH]; cbn.
  - destruct rest as [|d r]; [reflexivity|]. cbn. destruct (f d) eqn:E; [|reflexivity].
    elim Hr. exists d, r. auto.
  - cbn in Hw. apply andb_prop in Hw. destruct Hw as [H1 H2]. rewrite H1, (IH H2). reflexivity.
Qed.
Lemma escaped_len s : forall seen b r, escaped seen s = Some (b, r) -> (String.length r <= String.length s)%nat.
Proof.
  induction s as [s IH] using (induction_ltof1 _ String.length). unfold ltof in IH.
  intros seen b r H. destruct s as [|c s]; [discriminate|]. cbn [escaped] in H.
  destruct (Ascii.eqb c quote).
  - destruct seen; [|discriminate]. apply (f_equal (option_map snd)) in H. cbn in H. injection H as <-. cbn. lia.
  - destruct (Ascii.eqb c backslash).
    + destruct s as [|d s]; [discriminate|]. destruct (Ascii.eqb d quote); [|discriminate].
      destruct (escaped true s) as [[b' r']|] eqn:E; [|discriminate].
      apply (f_equal (option_map snd)) in H. cbn in H. injection H as <-.
      apply IH in E; cbn in *; lia.
    + destruct (escaped seen s) as [[b' r']|] eqn:E; [|discriminate].
      apply (f_equal (option_map snd)) in H. cbn in H. injection H as <-.
      apply IH in E; cbn in *; lia.
Qed.
Lemma after_char_len c s : (String.length (after_char c s) <= String.length s)%nat.
Proof. induction s as [|d s IH]; cbn; [lia|]. destruct (Ascii.eqb d c); lia. Qed.

Lemma some_pair {A B} (a a' : A) (b b' : B) : Some (a, b) = Some (a', b') -> a = a' /\ b = b'.
Proof. intros H. injection H as -> ->. auto. Qed.

Lemma in_range_cs c : char_between "0" "7" c = true -> In (String c "") ["0"; "1"; "2"; "3"; "4"; "5"; "6"; "7"].
Proof. chars c; try discriminate; intros _; cbn; tauto. Qed.
Lemma in_range_x c : char_between "1" "4" c = true -> In (String c "") ["1"; "2"; "3"; "4"].
Proof. chars c; try discriminate; intros _; cbn; tauto. Qed.
Lemma in_range_y c : char_between "1" "3" c = true -> In (String c "") ["1"; "2"; "3"].
Proof. chars c; try discriminate; intros _; cbn; tauto. Qed.

Ltac split_if H :=
  match type of H with (if ?b then _ else _) = _ => let E := fresh "E" in destruct b eqn:E end.
Ltac split_ands := repeat match goal with H : _ && _ = true |- _ => apply andb_prop in H; destruct H end.
Ltac chars_eq := repeat match goal with H : Ascii.eqb _ _ = true |- _ => apply Ascii.eqb_eq in H; subst end.

Lemma dscp_sound s a r : dscp s = Some (a, r) -> code_name a /\ s = a ++ r.
Proof.
  unfold dscp. destruct s as [|x [|y s]]; try discriminate. intros H.
  split_if H.
  { apply some_pair in H. destruct H as [<- <-]. split; [|reflexivity].
    apply orb_prop in E. destruct E as [E|E]; split_ands; chars_eq; constructor. }
  destruct s as [|c s]; [discriminate|]. split_if H.
  { apply some_pair in H. destruct H as [<- <-]. split; [|reflexivity]. split_ands. chars_eq.
    apply (cn_cs (String c "")). now apply in_range_cs. }
  destruct s as [|d s]; [discriminate|]. split_if H.
  { apply some_pair in H. destruct H as [<- <-]. split; [|reflexivity]. split_ands. chars_eq.
    apply (cn_af (String c "") (String d "")); [now apply in_range_x | now apply in_range_y]. }
  destruct s as [|e [|f [|g s]]]; try discriminate. split_if H; [|discriminate].
  apply some_pair in H. destruct H as [<- <-]. split; [|reflexivity]. split_ands. chars_eq.
  apply (cn_bits (String y (String c (String d (String e (String f (String g ""))))))); [reflexivity|].
  cbn. unfold is_bit in *. repeat (apply andb_true_intro; split); auto.
Qed.

Ltac open_in H := cbn in H; repeat (destruct H as [H|H]; [subst|]); [.. | destruct H].
Lemma bit_be x : (Ascii.eqb x "0" || Ascii.eqb x "1") = true -> Ascii.eqb x "e" = false /\ Ascii.eqb x "f" = false
  /\ Ascii.eqb x "s" = false.
Proof. chars x; try discriminate; auto. Qed.

Lemma dscp_complete a r : code_name a -> dscp (a ++ r) = Some (a, r).
Proof.
  intros [| | d Hd | x y Hx Hy | w Hl Hw]; try reflexivity.
  - open_in Hd; reflexivity.
  - open_in Hx; open_in Hy; reflexivity.
  - destruct w as [|x1 [|x2 [|x3 [|x4 [|x5 [|x6 [|]]]]]]]; try discriminate Hl. clear Hl.
    cbn in Hw. repeat (apply andb_prop in Hw; destruct Hw as [? Hw]).
    cbn -[Ascii.eqb is_bit char_between].
    destruct (bit_be x1) as (E1 & E2 & E3); [assumption|].
    rewrite E1, E2, E3, !andb_false_r. cbn [orb andb]. unfold is_bit.
    repeat match goal with H : Ascii.eqb _ _ || _ = true |- _ => rewrite H; clear H end. reflexivity.
Qed.

Lemma dscp_len s a r : dscp s = Some (a, r) -> (S (String.length r) < String.length s)%nat.
Proof.
  intros H. destruct (dscp_sound _ _ _ H) as [Ha ->].
  destruct Ha as [| | d Hd | x y Hx Hy | w Hl Hw]; cbn; try lia.
  - open_in Hd; cbn; lia.
  - open_in Hx; open_in Hy; cbn; lia.
  - destruct w as [|x1 [|x2 w]]; try discriminate Hl. cbn.
    clear. induction w as [|c w IH]; cbn; [lia|]. cbn in IH. lia.
Qed.

Lemma dscp_range_len s a r : dscp_range s = Some (a, r) -> (S (String.length r) < String.length s)%nat.
Proof.
  unfold dscp_range. destruct (dscp s) as [[x [|c q]]|] eqn:E; try discriminate.
  destruct (Ascii.eqb c "-"); [|discriminate]. destruct (dscp q) as [[y q']|] eqn:E2; [|discriminate].
  destruct (head_is is_word q'); [discriminate|]. intros H. apply some_pair in H. destruct H as [_ <-].
  apply dscp_len in E, E2. cbn in *. lia.
Qed.
Lemma dscp_word_len s a r : dscp_word s = Some (a, r) -> (S (String.length r) < String.length s)%nat.
Proof.
  unfold dscp_word. destruct (dscp s) as [[x q]|] eqn:E; [|discriminate].
  destruct (head_is word_or_dash q); [discriminate|]. intros H. apply some_pair in H. destruct H as [_ <-].
  now apply dscp_len in E.
Qed.
Lemma hex_len c s v r : hex c s = Some (v, r) -> (String.length r <= String.length s)%nat.
Proof.
  unfold hex. destruct s as [|x s]; [discriminate|].
  destruct (_ && _); [|discriminate]. intros H. apply some_pair in H. destruct H as [_ <-].
  pose proof (span_len is_hex_digit s). cbn. lia.
Qed.

Lemma lex_step_len prev c s : (String.length (snd (lex_step prev c s)) <= String.length s)%nat.
Proof.
  unfold lex_step. cbv zeta.
  destruct (_ || _); [cbn; lia|]. destruct (Ascii.eqb c "#"); [apply span_len|].
  destruct (Ascii.eqb c quote).
  { destruct (escaped false s) as [[b r]|] eqn:E; [apply escaped_len in E; exact E|].
    destruct (has_char quote s); [apply after_char_len | cbn; lia]. }
  destruct (Ascii.eqb c newline); [cbn; lia|].
  destruct (if prev then None else dscp_range (String c s)) as [[v r]|] eqn:E.
  { destruct prev; [discriminate|]. apply dscp_range_len in E. cbn in *. lia. }
  destruct (if prev then None else dscp_word (String c s)) as [[v r]|] eqn:E2.
  { destruct prev; [discriminate|]. apply dscp_word_len in E2. cbn in *. lia. }
  destruct (hex c s) as [[v r]|] eqn:E3; [apply hex_len in E3; exact E3|].
  destruct (is_digit c); [apply span_len|]. destruct (is_word c); [apply span_len|]. cbn. lia.
Qed.

Definition cons_opt {A} (o : option A) (l : list A) : list A := match o with Some a => a :: l | None => l end.
(** The lexer run with enough fuel. *)
Definition lexed (prev : bool) (s : string) (ts : list token) : Prop :=
  forall n, (String.length s <= n)%nat -> lex n prev s = Ok ts.
Lemma lexed_nil prev : lexed prev "" [].
Proof. intros [|n] _; reflexivity. Qed.
Lemma lexed_step prev c s t used rest ts :
  lex_step prev c s = (t, used, rest) -> lexed (ends_word used) rest ts -> lexed prev (String c s) (cons_opt t ts).
Proof.
  intros H Hr n Hn. destruct n as [|n]; [cbn in Hn; lia|]. cbn [lex].
  pose proof (lex_step_len prev c s) as L. rewrite H in *. cbn [fst snd] in *.
  rewrite Hr by (cbn in Hn; lia). cbn [bind]. destruct t; reflexivity.
Qed.
Lemma lex_total n : forall prev s, (String.length s <= n)%nat -> exists ts, lex n prev s = Ok ts.
Proof.
  induction n as [|n IH]; intros prev s Hn.
  - destruct s; [|cbn in Hn; lia]. exists []. reflexivity.
  - destruct s as [|c s]; [exists []; reflexivity|]. cbn [lex].
    pose proof (lex_step_len prev c s) as L.
    destruct (IH (ends_word (snd (fst (lex_step prev c s)))) (snd (lex_step prev c s))) as [ts E]; [cbn in Hn; lia|].
    rewrite E. eexists. reflexivity.
Qed.
Lemma tokenize_total s : exists ts, tokenize s = Ok ts.
Proof. apply lex_total. lia. Qed.

(** ** Words *)

Lemma word_char_plain c : word_char c = true ->
  Ascii.eqb c " " || Ascii.eqb c "009" = false /\ Ascii.eqb c "#" = false /\ Ascii.eqb c quote = false /\
  Ascii.eqb c newline = false.
Proof. chars c; try discriminate; repeat split. Qed.
Lemma code_chars a : code_name a -> forall_char name_char a = true.
Proof.
  intros [| | d Hd | x y Hx Hy | w Hl Hw]; try reflexivity.
  - open_in Hd; reflexivity.
  - open_in Hx; open_in Hy; reflexivity.
  - change (forall_char name_char ("b" ++ w)) with (forall_char name_char w). clear Hl.
    induction w as [|c w IH]; [reflexivity|]. cbn in *. apply andb_prop in Hw. destruct Hw as [H1 H2].
    rewrite (IH H2), andb_true_r. revert H1. clear. chars c; try discriminate; reflexivity.
Qed.
Lemma prefix_split a : forall w rest r, (w ++ rest)%string = (a ++ r)%string -> forall_char name_char a = true ->
  ~ starts name_char rest -> exists r0, w = (a ++ r0)%string /\ r = (r0 ++ rest)%string.
Proof.
  induction a as [|c a IH]; intros w rest r H Ha Hr.
  - exists w. auto.
  - cbn in Ha. apply andb_prop in Ha. destruct Ha as [H1 H2]. destruct w as [|d w].
    + cbn in H. elim Hr. exists c, (a ++ r)%string. auto.
    + cbn in H. injection H as -> H. destruct (IH _ _ _ H H2 Hr) as (r0 & -> & ->).
      exists r0. auto.
Qed.
Lemma starts_app f s t : starts f s -> head_is f (s ++ t) = true.
Proof. intros (c & r & -> & H). exact H. Qed.
Lemma app_str_assoc (a b c : string) : ((a ++ b) ++ c = a ++ (b ++ c))%string.
Proof. induction a as [|x a IH]; cbn; [reflexivity|]. now rewrite IH. Qed.
Lemma app_str_nil (a : string) : (a ++ "")%string = a.
Proof. induction a as [|x a IH]; cbn; [reflexivity|]. now rewrite IH. Qed.

(** No code point is split off a word. *)
Definition no_code (w : string) : Prop :=
  (forall c r, code_name c -> w = (c ++ r)%string -> starts (fun d => word_char d || Ascii.eqb d "-") r) /\
  (forall c d r, code_name c -> code_name d -> w = (c ++ "-" ++ d ++ r)%string -> starts word_char r).
Lemma no_code_word w rest : no_code w -> ~ starts name_char rest -> dscp_word (w ++ rest) = None.
Proof.
  intros [H _] Hr. unfold dscp_word. destruct (dscp (w ++ rest)) as [[a r]|] eqn:E; [|reflexivity].
  destruct (dscp_sound _ _ _ E) as [Ha Hs].
  destruct (prefix_split _ _ _ _ Hs (code_chars _ Ha) Hr) as (r0 & Hw & ->).
  specialize (H _ _ Ha Hw). apply (starts_app _ _ rest) in H.
  change (head_is word_or_dash (r0 ++ rest) = true) in H. now rewrite H.
Qed.
Lemma no_code_range w rest : no_code w -> ~ starts name_char rest -> dscp_range (w ++ rest) = None.
Proof.
  intros [_ H] Hr. unfold dscp_range. destruct (dscp (w ++ rest)) as [[a [|c r]]|] eqn:E; try reflexivity.
  destruct (Ascii.eqb c "-") eqn:Ec; [|reflexivity]. apply Ascii.eqb_eq in Ec. subst c.
  destruct (dscp r) as [[b r']|] eqn:E2; [|reflexivity].
  destruct (dscp_sound _ _ _ E) as [Ha Hs]. destruct (dscp_sound _ _ _ E2) as [Hb Hs2]. subst r.
  assert (Hn : forall_char name_char (a ++ "-" ++ b) = true).
  { rewrite !forall_char_app, (code_chars _ Ha), (code_chars _ Hb). reflexivity. }
  destruct (prefix_split (a ++ "-" ++ b) w rest r') as (r0 & Hw & ->); auto.
  { rewrite Hs. cbn. rewrite app_str_assoc. reflexivity. }
  rewrite app_str_assoc in Hw. specialize (H a b r0 Ha Hb Hw). apply (starts_app _ _ rest) in H.
  change (head_is is_word (r0 ++ rest) = true) in H. now rewrite H.
Qed.

Lemma hex_not_zero c s : Ascii.eqb c "0" = false -> hex c s = None.
Proof. intros H. unfold hex. destruct s as [|x s]; [reflexivity|]. now rewrite H. Qed.

Lemma step_word c w rest :
  word_char c = true -> is_digit c = false -> forall_char name_char w = true -> no_code (String c w) ->
  ~ starts name_char rest ->
  lex_step false c (w ++ rest) = (Some (word_token (String c w)), String c w, rest).
Proof.
  intros H1 H2 H3 H4 Hr. unfold lex_step. cbv zeta.
  destruct (word_char_plain _ H1) as (E1 & E2 & E3 & E4). rewrite E1, E2, E3, E4.
  change (String c (w ++ rest)) with (String c w ++ rest)%string.
  rewrite no_code_range, no_code_word by assumption.
  rewrite hex_not_zero, H2.
  - change (is_word c) with (word_char c). rewrite H1.
    change in_word with name_char. rewrite span_exact by assumption. reflexivity.
  - destruct (Ascii.eqb c "0") eqn:E; [|reflexivity]. apply Ascii.eqb_eq in E. subst c. discriminate.
Qed.

Lemma reserved_words : forallb (fun w =>
  match w with
  | String c r => word_char c && negb (is_digit c) && forall_char name_char r
                  && match dscp w with None => true | _ => false end
                  && negb (w =? "hex")%string
  | EmptyString => false
  end) reserved = true.
Proof. vm_compute. reflexivity. Qed.
Lemma reserved_word w : In w reserved -> exists c r, w = String c r /\ word_char c = true /\ is_digit c = false /\
  forall_char name_char r = true /\ no_code w /\ word_token w = Kw w.
Proof.
  intros H. pose proof (proj1 (forallb_forall _ _) reserved_words _ H) as Hc.
  destruct w as [|c r]; [discriminate|]. exists c, r.
  destruct (dscp (String c r)) eqn:E; [rewrite andb_false_r in Hc; discriminate|].
  split_ands. split; [reflexivity|]. split; [assumption|]. split; [now apply negb_true_iff|].
  split; [assumption|]. split.
  - split; intros a.
    + intros q Ha Hw. rewrite Hw, (dscp_complete _ _ Ha) in E. discriminate.
    + intros d q Ha Hd Hw. rewrite Hw, (dscp_complete _ _ Ha) in E. discriminate.
  - unfold word_token. replace (String c r =? "hex")%string with false by (symmetry; now apply negb_true_iff).
    replace (str_in (String c r) reserved) with true; [reflexivity|]. symmetry.
    unfold str_in, memb. apply existsb_exists. exists (String c r). split; [exact H|]. apply String.eqb_refl.
Qed.
Lemma name_word w : is_name w -> exists c r, w = String c r /\ word_char c = true /\ is_digit c = false /\
  forall_char name_char r = true /\ no_code w /\ word_token w = Str w.
Proof.
  intros ((c & r & -> & Hc) & Hn & Hk & H1 & H2). exists c, r.
  apply andb_prop in Hc. destruct Hc as [Hc Hd]. apply negb_true_iff in Hd.
  cbn in Hn. apply andb_prop in Hn. split; [reflexivity|]. split; [assumption|]. split; [assumption|].
  split; [apply Hn|]. split; [split; assumption|]. unfold word_token.
  destruct (String.eqb (String c r) "hex") eqn:E; [apply String.eqb_eq in E; elim Hk; left; auto|].
  destruct (str_in (String c r) reserved) eqn:E2; [|reflexivity].
  elim Hk. right. unfold str_in, memb in E2. apply existsb_exists in E2. destruct E2 as (x & Hx & Ex).
  apply String.eqb_eq in Ex. now subst.
Qed.

(** ** Numbers *)

Lemma not_starts_mono f g s : (forall c, f c = true -> g c = true) -> ~ starts g s -> ~ starts f s.
Proof. intros H Hn (c & r & -> & E). apply Hn. exists c, r. auto. Qed.
Lemma digit_word c : is_digit c = true -> word_char c = true.
Proof. unfold word_char. intros ->. now rewrite orb_true_r. Qed.
Lemma word_name c : word_char c = true -> name_char c = true.
Proof. unfold name_char. now intros ->. Qed.
Lemma code_first a : code_name a -> exists c r, a = String c r /\ is_digit c = false /\ word_char c = true.
Proof. intros [| | d Hd | x y Hx Hy | w Hl Hw]; cbn; eauto 6. Qed.
Lemma dscp_digit c s : is_digit c = true -> dscp (String c s) = None.
Proof.
  intros H. destruct (dscp (String c s)) as [[a r]|] eqn:E; [|reflexivity].
  destruct (dscp_sound _ _ _ E) as [Ha Hs]. destruct (code_first _ Ha) as (d & q & -> & Hd & _).
  cbn in Hs. injection Hs as -> _. congruence.
Qed.
Lemma dscp_digit_both c s : is_digit c = true -> dscp_range (String c s) = None /\ dscp_word (String c s) = None.
Proof. intros H. unfold dscp_range, dscp_word. now rewrite (dscp_digit _ _ H). Qed.

Lemma step_int prev c w rest : is_digit c = true -> forall_char is_digit w = true -> ~ starts word_char rest ->
  lex_step prev c (w ++ rest) = (Some (Int (String c w)), String c w, rest).
Proof.
  intros H1 H2 Hr. unfold lex_step. cbv zeta.
  destruct (word_char_plain _ (digit_word _ H1)) as (E1 & E2 & E3 & E4). rewrite E1, E2, E3, E4.
  destruct (dscp_digit_both c (w ++ rest) H1) as [-> ->].
  replace (hex c (w ++ rest)) with (@None (string * string)).
  - rewrite H1, span_exact; auto.
    + destruct prev; reflexivity.
    + revert Hr. apply not_starts_mono. exact digit_word.
  - symmetry. unfold hex. destruct (w ++ rest)%string as [|x s] eqn:E; [reflexivity|].
    destruct (Ascii.eqb x "x") eqn:Ex; [|rewrite andb_false_r; reflexivity].
    apply Ascii.eqb_eq in Ex. subst x. destruct w as [|d w].
    + cbn in E. elim Hr. exists "x"%char, s. auto.
    + cbn in E. injection E as -> _. discriminate.
Qed.
Lemma hex_digit_eq c : is_hex_digit c = hex_digit c.
Proof. chars c; reflexivity. Qed.
Lemma hex_word c : is_hex_digit c = true -> word_char c = true.
Proof. chars c; try discriminate; reflexivity. Qed.
Lemma forall_char_ext f g s : (forall c, f c = g c) -> forall_char f s = forall_char g s.
Proof. intros H. induction s as [|c s IH]; cbn; [reflexivity|]. now rewrite H, IH. Qed.
Lemma step_hex prev h rest : h <> "" -> forall_char hex_digit h = true -> ~ starts word_char rest ->
  lex_step prev "0" (String "x" h ++ rest) = (Some (Hex ("0x" ++ h)), "0x" ++ h, rest)%string.
Proof.
  intros Hn Hh Hr. rewrite <- (forall_char_ext _ _ _ hex_digit_eq) in Hh.
  unfold lex_step. cbv zeta. cbn [Ascii.eqb orb].
  change (Ascii.eqb "0" " " || Ascii.eqb "0" "009") with false. change (Ascii.eqb "0" "#") with false.
  change (Ascii.eqb "0" quote) with false. change (Ascii.eqb "0" newline) with false. cbv iota.
  destruct (dscp_digit_both "0" (String "x" h ++ rest) eq_refl) as [-> ->].
  assert (hex "0" (String "x" h ++ rest) = Some ("0x" ++ h, rest)%string) as ->; [|destruct prev; reflexivity].
  unfold hex. cbn [append]. change (Ascii.eqb "0" "0") with true. change (Ascii.eqb "x" "x") with true. cbn [andb].
  destruct h as [|c h]; [easy|].
  pose proof Hh as Hc. cbn in Hc. apply andb_prop in Hc. destruct Hc as [Hc _].
  change ((String c h ++ rest)%string) with (String c (h ++ rest)) at 1. cbn [head_is]. rewrite Hc.
  rewrite span_exact; [reflexivity|exact Hh|]. revert Hr. apply not_starts_mono. exact hex_word.
Qed.

Lemma not_head f s : ~ starts f s -> head_is f s = false.
Proof. intros H. destruct s as [|c s]; [reflexivity|]. cbn. destruct (f c) eqn:E; [|reflexivity]. elim H. exists c, s. auto. Qed.
Lemma code_step_plain a : code_name a -> exists c r, a = String c r /\ word_char c = true.
Proof. intros H. destruct (code_first _ H) as (c & r & -> & _ & Hc). eauto. Qed.
Lemma step_dscp a c w rest : code_name a -> a = String c w -> ~ starts (fun d => word_char d || Ascii.eqb d "-") rest ->
  lex_step false c (w ++ rest) = (Some (Dscp a), a, rest).
Proof.
  intros Ha E Hr. destruct (code_first _ Ha) as (c' & w' & E' & _ & Hc). rewrite E in E'. injection E' as <- <-.
  unfold lex_step. cbv zeta. destruct (word_char_plain _ Hc) as (E1 & E2 & E3 & E4). rewrite E1, E2, E3, E4.
  change (String c (w ++ rest)) with (String c w ++ rest)%string. rewrite <- E.
  unfold dscp_range, dscp_word. rewrite (dscp_complete _ _ Ha).
  change word_or_dash with (fun d => word_char d || Ascii.eqb d "-"). rewrite (not_head _ _ Hr).
  destruct rest as [|x rest]; [reflexivity|].
  destruct (Ascii.eqb x "-") eqn:Ex; [|reflexivity]. elim Hr. exists x, rest. rewrite Ex, orb_true_r. auto.
Qed.
Lemma step_range a b c w rest : code_name a -> code_name b -> (a ++ "-" ++ b)%string = String c w ->
  ~ starts word_char rest ->
  lex_step false c (w ++ rest) = (Some (DscpRange (a ++ "-" ++ b)), a ++ "-" ++ b, rest)%string.
Proof.
  intros Ha Hb E Hr. destruct (code_first _ Ha) as (c' & w' & E' & _ & Hc).
  assert (c' = c) as ->. { rewrite E' in E. cbn in E. congruence. }
  unfold lex_step. cbv zeta. destruct (word_char_plain _ Hc) as (E1 & E2 & E3 & E4). rewrite E1, E2, E3, E4.
  assert (dscp_range (String c (w ++ rest)) = Some (a ++ "-" ++ b, rest)%string) as ->; [|reflexivity].
  change (String c (w ++ rest)) with (String c w ++ rest)%string. rewrite <- E.
  unfold dscp_range. rewrite !app_str_assoc, (dscp_complete _ _ Ha). cbn [append].
  change (Ascii.eqb "-" "-") with true. cbv iota.
  rewrite (dscp_complete _ _ Hb). change is_word with word_char. now rewrite (not_head _ _ Hr).
Qed.

(** ** Quotes *)

Lemma escaped_escapes s n rest : escapes s n -> forall seen, (n = 0%nat -> seen = true) ->
  escaped seen (s ++ String quote rest) = Some (s, rest).
Proof.
  induction 1 as [|c s n Hq Hb H IH|s n H IH]; intros seen Hs.
  - cbn. now rewrite Hs.
  - cbn [append escaped]. destruct (Ascii.eqb c quote) eqn:E1; [now apply Ascii.eqb_eq in E1|].
    destruct (Ascii.eqb c backslash) eqn:E2; [now apply Ascii.eqb_eq in E2|]. rewrite IH by exact Hs. reflexivity.
  - cbn [append escaped]. change (Ascii.eqb "\" quote) with false. change (Ascii.eqb "\" backslash) with true.
    change (Ascii.eqb """" quote) with true. cbv iota. rewrite IH by auto. reflexivity.
Qed.
Lemma escaped_plain s rest : has_char quote s = false -> ends_with "\" s = false ->
  escaped false (s ++ String quote rest) = None.
Proof.
  induction s as [|c s IH]; intros H1 H2; [reflexivity|].
  cbn in H1. apply orb_false_iff in H1. destruct H1 as [E1 H1].
  cbn [append escaped]. rewrite E1. destruct (Ascii.eqb c backslash) eqn:E2.
  - destruct s as [|d s]; [cbn in H2; change backslash with "\"%char in E2; congruence|]. cbn. cbn in H1.
    apply orb_false_iff in H1. destruct H1 as [E3 _]. now rewrite E3.
  - rewrite IH; [reflexivity|assumption|]. destruct s; [reflexivity|exact H2].
Qed.
Lemma has_char_mid c s r : has_char c (s ++ String c r) = true.
Proof. rewrite has_char_app. cbn. rewrite Ascii.eqb_refl. cbn. now rewrite orb_true_r. Qed.

Lemma step_dq prev s rest : has_char quote s = false -> ends_with "\" s = false ->
  lex_step prev quote ((s ++ String quote "") ++ rest) = (Some (DQ (in_quotes s)), in_quotes s, rest).
Proof.
  intros H1 H2. rewrite app_str_assoc. change (String quote "" ++ rest)%string with (String quote rest).
  unfold lex_step. cbv zeta. change (Ascii.eqb quote " " || Ascii.eqb quote "009") with false.
  change (Ascii.eqb quote "#") with false. change (Ascii.eqb quote quote) with true. cbv iota.
  rewrite escaped_plain, has_char_mid by assumption.
  rewrite before_char_app, after_char_app by assumption. cbn [before_char after_char].
  rewrite Ascii.eqb_refl, app_str_nil. reflexivity.
Qed.
Lemma step_esc prev s n rest : escapes s (S n) ->
  lex_step prev quote ((s ++ String quote "") ++ rest) = (Some (Esc (in_quotes s)), in_quotes s, rest).
Proof.
  intros H. rewrite app_str_assoc. change (String quote "" ++ rest)%string with (String quote rest).
  unfold lex_step. cbv zeta. change (Ascii.eqb quote " " || Ascii.eqb quote "009") with false.
  change (Ascii.eqb quote "#") with false. change (Ascii.eqb quote quote) with true. cbv iota.
  rewrite (escaped_escapes _ _ rest H) by discriminate. reflexivity.
Qed.

(** ** Whole texts *)

Lemma ends_word_last s c : ends_word (s ++ String c "") = is_word c.
Proof.
  unfold ends_word. replace (list_ascii_of_string (s ++ String c "")) with (list_ascii_of_string s ++ [c])%list.
  - rewrite rev_app_distr. reflexivity.
  - induction s as [|d s IH]; cbn; [reflexivity|]. now rewrite IH.
Qed.
Definition before_ok (prev : bool) (s : string) : Prop := starts word_char s -> prev = false.

(** One token. *)
Lemma step_token t w rest : spelled t w -> may_follow t rest -> exists c w', w = String c w' /\
  (forall prev, before_ok prev (w ++ rest) -> lex_step prev c (w' ++ rest) = (Some t, w, rest)) /\
  before_ok (ends_word w) rest.
Proof.
  intros Hs Hf.
  assert (Hb : forall c r prev, word_char c = true -> before_ok prev (String c r) -> prev = false).
  { intros c r prev Hc Hb. apply Hb. exists c, r. auto. }
  assert (Hno : forall b, ~ starts word_char rest -> before_ok b rest).
  { intros b Hn Hst. now elim Hn. }
  assert (Hlit : forall t c, punct c = Some t -> word_char c = false -> Ascii.eqb c quote = false ->
    (Ascii.eqb c " " || Ascii.eqb c "009") = false -> Ascii.eqb c "#" = false -> Ascii.eqb c newline = false ->
    exists c0 w', String c "" = String c0 w' /\
     (forall prev, before_ok prev (String c "" ++ rest) ->
        lex_step prev c0 (w' ++ rest) = (Some t, String c "", rest)) /\ before_ok (ends_word (String c "")) rest).
  { intros t' c Hp Hw E1 E2 E3 E4. exists c, "". split; [reflexivity|]. split.
    - intros prev _. unfold lex_step. cbv zeta. rewrite E2, E3, E1, E4. cbn [append].
      assert (Hd : dscp (String c rest) = None).
      { destruct (dscp (String c rest)) as [[a r]|] eqn:E; [|reflexivity].
        destruct (dscp_sound _ _ _ E) as [Ha Hx]. destruct (code_first _ Ha) as (d & q & -> & _ & Hd).
        cbn in Hx. injection Hx as -> _. congruence. }
      unfold dscp_range, dscp_word. rewrite Hd.
      rewrite hex_not_zero by (destruct (Ascii.eqb c "0") eqn:E; [apply Ascii.eqb_eq in E; subst; discriminate|reflexivity]).
      replace (is_digit c) with false
        by (symmetry; destruct (is_digit c) eqn:E; [apply digit_word in E; congruence|reflexivity]).
      change (is_word c) with (word_char c). rewrite Hw, Hp. destruct prev; reflexivity.
    - intros _. change (ends_word (String c "")) with (word_char c). exact Hw. }
  destruct Hs as [w Hw|w Hw|w Hw|h Hn Hh|a Ha|a b Ha Hb'|s H1 H2|s n H| | | | | | | | | |];
    try (apply Hlit; reflexivity).
  - destruct (reserved_word _ Hw) as (c & r & -> & Hc & Hd & Hr & Hk & Ht). exists c, r. split; [reflexivity|].
    split.
    + intros prev Hp. rewrite (Hb c _ prev Hc Hp). rewrite step_word by assumption. now rewrite Ht.
    + apply Hno. revert Hf. apply not_starts_mono. exact word_name.
  - destruct (name_word _ Hw) as (c & r & -> & Hc & Hd & Hr & Hk & Ht). exists c, r. split; [reflexivity|].
    split.
    + intros prev Hp. rewrite (Hb c _ prev Hc Hp). rewrite step_word by assumption. now rewrite Ht.
    + apply Hno. revert Hf. apply not_starts_mono. exact word_name.
  - destruct w as [|c w]; [discriminate|]. unfold digits in Hw. cbn in Hw. apply andb_prop in Hw.
    exists c, w. split; [reflexivity|]. split; [|now apply Hno].
    intros prev _. now apply step_int.
  - exists "0"%char, (String "x" h). split; [reflexivity|]. split; [|now apply Hno].
    intros prev _. now apply step_hex.
  - destruct (code_step_plain _ Ha) as (c & r & E & Hc). exists c, r. split; [exact E|]. split.
    + intros prev Hp. rewrite E in Hp. rewrite (Hb c _ prev Hc Hp). now apply step_dscp.
    + apply Hno. revert Hf. apply not_starts_mono. intros d ->. reflexivity.
  - destruct (code_step_plain _ Ha) as (c & r & E & Hc). exists c, (r ++ "-" ++ b)%string.
    assert (E2 : (a ++ "-" ++ b)%string = String c (r ++ "-" ++ b)) by (now rewrite E).
    split; [exact E2|]. split; [|now apply Hno].
    intros prev Hp. rewrite E2 in Hp. rewrite (Hb c _ prev Hc Hp). now apply step_range.
  - exists quote, (s ++ String quote "")%string. split; [reflexivity|]. split.
    + intros prev _. now apply step_dq.
    + intros _. change (in_quotes s) with (String quote s ++ String quote "")%string.
      rewrite ends_word_last. reflexivity.
  - exists quote, (s ++ String quote "")%string. split; [reflexivity|]. split.
    + intros prev _. now apply (step_esc _ _ n).
    + intros _. change (in_quotes s) with (String quote s ++ String quote "")%string.
      rewrite ends_word_last. reflexivity.
Qed.

Lemma step_newline prev s : lex_step prev "010" s = (None, String "010" "", s).
Proof. reflexivity. Qed.
Lemma step_comment prev t s : has_char "010" t = false ->
  lex_step prev "#" (t ++ String "010" s) = (None, String "#" t, String "010" s).
Proof.
  intros H. unfold lex_step. cbv zeta. change (Ascii.eqb "#" " " || Ascii.eqb "#" "009") with false.
  change (Ascii.eqb "#" "#") with true. cbv iota. rewrite span_exact; [reflexivity| |].
  - induction t as [|c t IH]; [reflexivity|]. cbn in H. apply orb_false_iff in H. destruct H as [H1 H2].
    cbn. apply andb_true_intro. split; [unfold newline; now rewrite H1 | exact (IH H2)].
  - intros (c & r & E & Hc). injection E as <- _. discriminate.
Qed.

Lemma lexed_gap g s ts : gap g -> (forall prev, before_ok prev s -> lexed prev s ts) ->
  forall prev, before_ok prev (g ++ s) -> lexed prev (g ++ s) ts.
Proof.
  intros Hg Hs. induction Hg as [|c g Hc Hg IH|t g Ht Hg IH]; intros prev Hp.
  - now apply Hs.
  - change (lexed prev (String c (g ++ s)) (cons_opt (@None token) ts)).
    eapply lexed_step; [|apply IH].
    + destruct Hc as [<-|[<-|[<-|[]]]]; reflexivity.
    + intros _. destruct Hc as [<-|[<-|[<-|[]]]]; reflexivity.
  - assert (E : (("#" ++ t ++ String "010" g) ++ s)%string = String "#" (t ++ String "010" (g ++ s))).
    { cbn. rewrite app_str_assoc. reflexivity. }
    rewrite E. change ts with (cons_opt (@None token) ts).
    eapply lexed_step; [apply step_comment; exact Ht|].
    change ts with (cons_opt (@None token) ts).
    eapply lexed_step; [apply step_newline|]. apply IH. intros _. reflexivity.
Qed.

Lemma laid_out_lexed ts s : laid_out ts s -> forall prev, before_ok prev s -> lexed prev s ts.
Proof.
  induction 1 as [g Hg|g t w ts rest Hg Hs Hf Hl IH].
  - intros prev Hp. rewrite <- (app_str_nil g). apply (lexed_gap g "" [] Hg).
    + intros p _. apply lexed_nil.
    + rewrite app_str_nil. exact Hp.
  - apply lexed_gap; [exact Hg|]. intros prev Hp.
    destruct (step_token _ _ _ Hs Hf) as (c & w' & E & Hstep & Hb).
    rewrite E at 1. cbn [append]. change (t :: ts) with (cons_opt (Some t) ts).
    eapply lexed_step; [apply Hstep; exact Hp|]. rewrite <- ?E. now apply IH.
Qed.

Theorem tokenize_laid_out ts s : laid_out ts s -> tokenize s = Ok ts.
Proof. intros H. apply (laid_out_lexed _ _ H); [intros _; reflexivity|lia]. Qed.
