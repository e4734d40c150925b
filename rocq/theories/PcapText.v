(** Words and expressions of pcap filters. *)
From Coq Require Import Lia ZifyBool ZifyNat.
From Verif Require Import SpecPcap BaseFacts PyStrFacts TextProofs CiscoProofs.
Local Open Scope string_scope.
Local Open Scope list_scope.
Local Open Scope Z_scope.

(** ** Words *)

Definition plain_char (c : ascii) : bool := negb (is_blank c || is_sign c).
Definition pc_plain (s : string) : Prop := s <> "" /\ forall_char plain_char s = true.
Definition boundary (r : string) : Prop := match r with EmptyString => True | String c _ => is_blank c || is_sign c = true end.
Lemma words_boundary cur r : boundary r -> pc_words cur r = flush cur ++ pc_words "" r.
Proof.
  destruct r as [|c r]; cbn [boundary pc_words]; intros B; [rewrite app_nil_r; reflexivity|].
  destruct (is_blank c); [reflexivity|]. cbn [orb] in B. rewrite B. reflexivity.
Qed.
Lemma words_plain s : forall_char plain_char s = true -> forall cur r, pc_words cur (s ++ r)%string = pc_words (append cur s) r.
Proof.
  induction s as [|c s IH]; cbn [forall_char append]; intros H cur r; [rewrite str_app_nil; reflexivity|]. apply andb_true_iff in H. destruct H as (H & H').
  unfold plain_char in H. apply negb_true_iff, orb_false_iff in H. destruct H as (H1 & H2). cbn [pc_words]. rewrite H1, H2, (IH H'), str_app_assoc. reflexivity.
Qed.
Definition lexes (s : string) (ts : list string) : Prop := forall r, boundary r -> pc_words "" (s ++ r)%string = ts ++ pc_words "" r.
Lemma lexes_word w : pc_plain w -> lexes w [w].
Proof.
  intros (N & H) r B. rewrite (words_plain w H), words_boundary by exact B. cbn [append]. unfold flush. destruct w; [congruence|reflexivity].
Qed.
Lemma lexes_blank a b A B : lexes a A -> lexes b B -> lexes (a ++ " " ++ b)%string (A ++ B).
Proof.
  intros Ha Hb r Br. rewrite !str_app_assoc, Ha by reflexivity. cbn [append]. change (pc_words "" (String " " (b ++ r)%string)) with (pc_words "" (b ++ r)%string).
  rewrite (Hb r Br), app_assoc. reflexivity.
Qed.
Lemma lexes_sign a b A B c : is_blank c = false -> is_sign c = true -> lexes a A -> lexes b B -> lexes (a ++ String c b)%string (A ++ String c "" :: B).
Proof.
  intros C1 C2 Ha Hb r Br. rewrite str_app_assoc. cbn [append]. rewrite Ha by (cbn [boundary]; rewrite C2; apply orb_true_r). cbn [pc_words]. rewrite C1, C2. cbn [flush nonempty app].
  rewrite (Hb r Br), <- app_assoc. reflexivity.
Qed.
Lemma lexes_nil : lexes "" [].
Proof. intros r _. reflexivity. Qed.
Lemma lexes_paren a A : lexes a A -> lexes ("(" ++ a ++ ")")%string ("(" :: A ++ [")"]).
Proof.
  intros Ha. change ("(" ++ a ++ ")")%string with (("" ++ String "(" (a ++ String ")" "")))%string. apply (lexes_sign "" _ [] (A ++ [")"]) "("); [reflexivity|reflexivity|apply lexes_nil|].
  apply (lexes_sign a "" A []); [reflexivity|reflexivity|exact Ha|apply lexes_nil].
Qed.
Lemma lexes_newline a A : lexes a A -> lexes (a ++ String newline "")%string A.
Proof.
  intros Ha r Br. rewrite str_app_assoc. cbn [append]. rewrite Ha by reflexivity. reflexivity.
Qed.
(** Words joined by a word, or by a sign. *)
Fixpoint between (op : list string) (l : list (list string)) : list string :=
  match l with [] => [] | [x] => x | x :: r => x ++ op ++ between op r end.
Lemma between_cons op x y r : between op (x :: y :: r) = x ++ op ++ between op (y :: r).
Proof. reflexivity. Qed.
Lemma lexes_join op ops l ts : lexes op ops -> Forall2 lexes l ts -> l <> [] -> lexes (join (" " ++ op ++ " ")%string l) (between ops ts).
Proof.
  intros Ho F. induction F as [|x t l ts H F IH]; [congruence|]. intros _. destruct F as [|y u l ts H' F]; [exact H|]. rewrite join_cons2, between_cons.
  replace (x ++ (" " ++ op ++ " ") ++ join (" " ++ op ++ " ") (y :: l))%string with (x ++ " " ++ (op ++ " " ++ join (" " ++ op ++ " ") (y :: l)))%string
    by (rewrite !str_app_assoc; reflexivity).
  apply lexes_blank; [exact H|]. apply lexes_blank; [exact Ho|]. apply IH. discriminate.
Qed.
Lemma lexes_bars l ts : Forall2 lexes l ts -> l <> [] -> lexes (join "|" l) (between ["|"] ts).
Proof.
  induction 1 as [|x t l ts H F IH]; [congruence|]. intros _. destruct F as [|y u l ts H' F]; [exact H|]. rewrite join_cons2, between_cons.
  apply (lexes_sign x (join "|" (y :: l)) t (between ["|"] (u :: ts)) "|"); [reflexivity|reflexivity|exact H|]. apply IH. discriminate.
Qed.

(** ** Expressions *)

Definition means (local : ipaddr -> Prop) (ts : list string) (c : packet -> Prop) : Prop :=
  forall stack f f' rest, operand c f = Some f' -> expr_run local (ts ++ rest) (stack, f, []) = expr_run local rest (stack, f', []).
Lemma operand_awaits c f f' : operand c f = Some f' -> awaits f = true.
Proof. unfold operand, awaits. destruct (f_acc f), (f_op f) as [[]|]; congruence. Qed.
Definition special : list string := ["("; ")"; "and"; "or"; "not"].
Lemma means_primitive local ws c : primitive local ws = Some c -> (forall pre post, ws = pre ++ post -> pre <> [] -> post <> [] -> primitive local pre = None) ->
  match ws with w :: _ => ~ In w special | [] => False end -> means local ws c.
Proof.
  intros P N S stack f f' rest O.
  assert (G : forall post pre, ws = pre ++ post -> pre <> [] -> post <> [] -> expr_run local (post ++ rest) (stack, f, pre) = expr_run local rest (stack, f', [])).
  { induction post as [|w post IH]; intros pre E Np Nq; [congruence|]. cbn [app expr_run]. unfold expr_step. replace (some pre) with true by (destruct pre; [congruence|reflexivity]).
    destruct post as [|w' post].
    - rewrite <- E, P, O. reflexivity.
    - rewrite (N (pre ++ [w]) (w' :: post)); [|rewrite E, <- app_assoc; reflexivity|destruct pre; discriminate|discriminate].
      apply IH; [rewrite E, <- app_assoc; reflexivity|destruct pre; discriminate|discriminate]. }
  destruct ws as [|w ws]; [destruct S|]. cbn [app expr_run]. unfold expr_step at 1. cbn [some].
  assert (Sp : forall x, In x special -> String.eqb w x = false) by (intros x I; apply String.eqb_neq; intros ->; exact (S I)).
  rewrite !Sp by (cbn; auto 10). rewrite (operand_awaits _ _ _ O). destruct ws as [|w' ws].
  - rewrite P, O. reflexivity.
  - rewrite (N [w] (w' :: ws)); [|reflexivity|discriminate|discriminate]. apply (G (w' :: ws) [w]); [reflexivity|discriminate|discriminate].
Qed.
Lemma means_group local ts c : (forall stack rest, expr_run local (ts ++ rest) (stack, empty_frame, []) = expr_run local rest (stack, mkFrame (Some c) None false, [])) ->
  means local ("(" :: ts ++ [")"]) c.
Proof.
  intros H stack f f' rest O. cbn [app expr_run]. unfold expr_step at 1. cbn [some String.eqb Ascii.eqb Bool.eqb]. rewrite (operand_awaits _ _ _ O). rewrite <- app_assoc.
  rewrite H. cbn [app expr_run]. unfold expr_step. cbn [some String.eqb Ascii.eqb Bool.eqb f_acc awaits f_op]. rewrite O. reflexivity.
Qed.
Definition word_of (b : bool) : string := if b then "and" else "or".
Definition both (b : bool) (x y : Prop) : Prop := if b then x /\ y else x \/ y.
Lemma step_word local b stack a rest : expr_run local (word_of b :: rest) (stack, mkFrame (Some a) None false, []) = expr_run local rest (stack, mkFrame (Some a) (Some b) false, []).
Proof. destruct b; reflexivity. Qed.
Lemma run_more local b ts : forall cs, Forall2 (means local) ts cs -> forall a, exists a',
  (forall stack rest, expr_run local (flat_map (fun t => word_of b :: t) ts ++ rest) (stack, mkFrame (Some a) None false, []) = expr_run local rest (stack, mkFrame (Some a') None false, [])) /\
  forall p, a' p <-> if b then a p /\ Forall (fun c : packet -> Prop => c p) cs else a p \/ Exists (fun c : packet -> Prop => c p) cs.
Proof.
  induction ts as [|t ts IH]; intros cs F a; inversion F as [|? c ? cs' H F']; subst.
  - exists a. split; [reflexivity|]. intros p. destruct b; [split; [intros X; split; [exact X|constructor]|intros (X & _); exact X]|split; [auto|intros [X|X]; [exact X|inversion X]]].
  - destruct (IH cs' F' (fun p => if b then a p /\ c p else a p \/ c p)) as (a' & R & E). exists a'. split.
    + intros stack rest. cbn [flat_map app]. rewrite step_word. rewrite <- app_assoc.
      rewrite (H stack (mkFrame (Some a) (Some b) false) (mkFrame (Some (fun p => if b then a p /\ c p else a p \/ c p)) None false)); [apply R|]. destruct b; reflexivity.
    + intros p. rewrite E. destruct b.
      * rewrite Forall_cons_iff. tauto.
      * rewrite Exists_cons. tauto.
Qed.
Lemma between_flat op ts : forall t, between op (t :: ts) = t ++ flat_map (fun x => op ++ x) ts.
Proof. induction ts as [|u ts IH]; intros t; [symmetry; apply app_nil_r|]. rewrite between_cons, IH. cbn [flat_map]. rewrite <- app_assoc. reflexivity. Qed.
Lemma means_join local b ts cs : Forall2 (means local) ts cs -> ts <> [] -> exists c, means local ("(" :: between [word_of b] ts ++ [")"]) c /\
  forall p, c p <-> if b then Forall (fun c : packet -> Prop => c p) cs else Exists (fun c : packet -> Prop => c p) cs.
Proof.
  intros F N. destruct F as [|t c ts cs H F]; [congruence|]. destruct (run_more local b ts cs F c) as (a' & R & E). exists a'. split.
  - apply means_group. intros stack rest. rewrite between_flat, <- app_assoc. rewrite (H stack empty_frame (mkFrame (Some c) None false)) by reflexivity. apply R.
  - intros p. rewrite E. destruct b; [rewrite Forall_cons_iff; tauto|rewrite Exists_cons; tauto].
Qed.
Lemma means_not local ts us c d : means local ts c -> means local us d -> exists e, means local ("(" :: ts ++ "and" :: "not" :: us ++ [")"]) e /\ forall p, e p <-> c p /\ ~ d p.
Proof.
  intros H1 H2. exists (fun p => c p /\ ~ d p). split; [|tauto].
  replace ("(" :: ts ++ "and" :: "not" :: us ++ [")"]) with ("(" :: (ts ++ "and" :: "not" :: us) ++ [")"]) by (rewrite <- app_assoc; reflexivity).
  apply means_group. intros stack rest. rewrite <- app_assoc. rewrite (H1 stack empty_frame (mkFrame (Some c) None false)) by reflexivity.
  cbn [app expr_run]. unfold expr_step. cbn [some String.eqb Ascii.eqb Bool.eqb f_acc awaits f_op f_not negb].
  apply H2. reflexivity.
Qed.

(** ** Texts of conditions *)

(** Starts with something other than white space and does not end with a blank. *)
Definition solid (s : string) : Prop := match s with String c _ => is_ws c = false | EmptyString => False end /\ rstrip_blanks s = s.
Lemma rstrip_last s c : Ascii.eqb c " " = false -> rstrip_blanks (s ++ String c "")%string = (s ++ String c "")%string.
Proof.
  intros H. induction s as [|d s IH]; cbn [append rstrip_blanks]; [cbn [rstrip_blanks is_empty]; rewrite H; reflexivity|]. rewrite IH.
  replace (is_empty (s ++ String c "")) with false by (destruct s; reflexivity). rewrite andb_false_r. reflexivity.
Qed.
Lemma solid_paren x : solid ("(" ++ x ++ ")").
Proof. split; [reflexivity|]. exact (rstrip_last ("(" ++ x)%string ")" eq_refl). Qed.
Lemma solid_newline s : solid s -> solid (s ++ String newline "").
Proof. intros (A & B). split; [destruct s; [destruct A|exact A]|]. apply rstrip_last. reflexivity. Qed.
Lemma solid_end s c : match s with String c _ => is_ws c = false | EmptyString => False end -> Ascii.eqb c " " = false -> solid (s ++ String c "").
Proof. intros A B. split; [destruct s; [destruct A|exact A]|]. apply rstrip_last, B. Qed.
Lemma rstrip_blanks_plain s : has_char " " s = false -> rstrip_blanks s = s.
Proof.
  induction s as [|c s IH]; [reflexivity|]. cbn [has_char rstrip_blanks]. intros H. apply orb_false_iff in H. destruct H as (H1 & H2). rewrite (IH H2), H1. reflexivity.
Qed.
Lemma rstrip_blanks_app a b : b <> "" -> rstrip_blanks b = b -> rstrip_blanks (a ++ b)%string = (a ++ b)%string.
Proof.
  intros N H. induction a as [|c a IH]; [exact H|]. cbn [append rstrip_blanks]. rewrite IH. replace (is_empty (a ++ b)) with false by (destruct a; [destruct b; [congruence|reflexivity]|reflexivity]).
  rewrite andb_false_r. reflexivity.
Qed.
Lemma solid_word a b : match a with String c _ => is_ws c = false | EmptyString => False end -> b <> "" -> has_char " " b = false -> solid (a ++ b).
Proof. intros A N H. split; [destruct a; [destruct A|exact A]|]. apply rstrip_blanks_app; [exact N|apply rstrip_blanks_plain, H]. Qed.
Lemma solid_strip s : solid s -> strip_blanks s = s.
Proof.
  intros (A & B). unfold strip_blanks. destruct s as [|c s]; [destruct A|]. cbn [lstrip_blanks].
  replace (Ascii.eqb c " ") with false; [exact B|]. symmetry. apply Ascii.eqb_neq. intros ->. discriminate A.
Qed.
Lemma solid_kept s : solid s -> nonempty s = true /\ nonempty (strip s) = true.
Proof.
  intros (A & _). destruct s as [|c s]; [destruct A|]. split; [reflexivity|]. unfold strip. cbn [lstrip]. rewrite A. cbn [rstrip]. rewrite A. reflexivity.
Qed.
Definition blank_text (s : string) : Prop := s = "" \/ s = String newline "".
Lemma blank_dropped s : blank_text s -> nonempty s && nonempty (strip s) = false.
Proof. intros [-> | ->]; reflexivity. Qed.
(** A text that says something of the packets in P. *)
Definition states (local : ipaddr -> Prop) (P : packet -> Prop) (s : string) (C : packet -> Prop) : Prop :=
  solid s /\ exists ts c, lexes s ts /\ means local ts c /\ forall p, P p -> c p <-> C p.
Definition says (local : ipaddr -> Prop) (P : packet -> Prop) (s : string) (C : packet -> Prop) : Prop :=
  (blank_text s /\ forall p, P p -> C p) \/ states local P s C.
Lemma states_iff local P s C D : states local P s C -> (forall p, P p -> C p <-> D p) -> states local P s D.
Proof. intros (S & ts & c & L & M & E) H. split; [exact S|]. exists ts, c. split; [exact L|]. split; [exact M|]. intros p Pp. rewrite (E p Pp). apply H, Pp. Qed.
Lemma says_iff local P s C D : says local P s C -> (forall p, P p -> C p <-> D p) -> says local P s D.
Proof. intros [(B & A)|S] H; [left; split; [exact B|intros p Pp; apply H; auto]|right; exact (states_iff _ _ _ _ _ S H)]. Qed.
Lemma filter_twice (l : list string) : filter (fun x => nonempty (strip x)) (filter nonempty l) = filter (fun x => nonempty x && nonempty (strip x)) l.
Proof.
  induction l as [|x l IH]; [reflexivity|]. cbn [filter]. destruct (nonempty x); cbn [andb filter]; [destruct (nonempty (strip x)); rewrite IH; reflexivity|exact IH].
Qed.
Lemma join_texts l op : exists kept, filter (fun x => nonempty x && nonempty (strip x)) l = kept /\
  join_conditionals l op = (if some kept then "(" ++ join (" " ++ op ++ " ") (map strip_blanks kept) ++ ")" else "")%string.
Proof. eexists. split; [reflexivity|]. unfold join_conditionals. cbv zeta. rewrite filter_twice. destruct (filter (fun x => nonempty x && nonempty (strip x)) l); reflexivity. Qed.
Lemma states_join local P b l Cs : Forall2 (states local P) l Cs -> l <> [] ->
  states local P (join_conditionals l (word_of b)) (fun p => if b then Forall (fun C : packet -> Prop => C p) Cs else Exists (fun C : packet -> Prop => C p) Cs).
Proof.
  intros F N. destruct (join_texts l (word_of b)) as (kept & K & E).
  assert (Kl : kept = l).
  { rewrite <- K. clear - F. induction F as [|x C l Cs (S & _) F IH]; [reflexivity|]. cbn [filter]. destruct (solid_kept x S) as (K1 & K2). rewrite K1, K2. cbn [andb]. rewrite IH. reflexivity. }
  assert (Ml : map strip_blanks l = l) by (clear - F; induction F as [|x C l Cs (S & _) F IH]; [reflexivity|]; cbn [map]; rewrite (solid_strip x S), IH; reflexivity).
  rewrite E, Kl, Ml. replace (some l) with true by (destruct l; [congruence|reflexivity]).
  assert (G : exists ts cs, Forall2 lexes l ts /\ Forall2 (means local) ts cs /\ Forall2 (fun c C => forall p, P p -> c p <-> C p) cs Cs).
  { clear - F. induction F as [|x C l Cs (_ & t & c & L & M & H) F (ts & cs & F1 & F2 & F3)]; [exists [], []; auto|]. exists (t :: ts), (c :: cs). auto. }
  destruct G as (ts & cs & F1 & F2 & F3). assert (Nt : ts <> []) by (destruct F1; [congruence|discriminate]).
  destruct (means_join local b ts cs F2 Nt) as (c & M & H). split; [apply solid_paren|].
  exists ("(" :: between [word_of b] ts ++ [")"]), c. split; [|split; [exact M|]].
  - apply lexes_paren. apply lexes_join; [|exact F1|exact N]. apply lexes_word. destruct b; (split; [discriminate|reflexivity]).
  - intros p Pp. rewrite H. clear - F3 Pp. destruct b.
    + induction F3 as [|c C cs Cs X F IH]; [split; constructor|]. rewrite !Forall_cons_iff, IH, (X p Pp). reflexivity.
    + induction F3 as [|c C cs Cs X F IH]; [split; intros Y; inversion Y|]. rewrite !Exists_cons, IH, (X p Pp). reflexivity.
Qed.
Lemma says_and local P l Cs : Forall2 (says local P) l Cs -> says local P (join_conditionals l "and") (fun p => Forall (fun C : packet -> Prop => C p) Cs) /\
  (Exists (fun x => solid x) l -> states local P (join_conditionals l "and") (fun p => Forall (fun C : packet -> Prop => C p) Cs)) /\
  ((forall x, In x l -> blank_text x) -> join_conditionals l "and" = "").
Proof.
  intros F. destruct (join_texts l "and") as (kept & K & E).
  assert (G : exists Ks, Forall2 (states local P) kept Ks /\ forall p, P p -> Forall (fun C : packet -> Prop => C p) Cs <-> Forall (fun C : packet -> Prop => C p) Ks).
  { subst kept. clear E. induction F as [|x C l Cs H F (Ks & F1 & F2)]; [exists []; split; [constructor|tauto]|]. cbn [filter]. destruct H as [(B & A)|S].
    - rewrite (blank_dropped x B). exists Ks. split; [exact F1|]. intros p Pp. rewrite Forall_cons_iff, (F2 p Pp). specialize (A p Pp). tauto.
    - destruct (solid_kept x (proj1 S)) as (K1 & K2). rewrite K1, K2. cbn [andb]. exists (C :: Ks). split; [constructor; assumption|]. intros p Pp. rewrite !Forall_cons_iff, (F2 p Pp). reflexivity. }
  destruct G as (Ks & F1 & F2).
  assert (J : kept <> [] -> states local P (join_conditionals l "and") (fun p => Forall (fun C : packet -> Prop => C p) Cs)).
  { intros N. apply (states_iff local P _ (fun p => Forall (fun C : packet -> Prop => C p) Ks)); [|intros p Pp; symmetry; apply F2, Pp].
    pose proof (states_join local P true kept Ks F1 N) as S. cbn [word_of] in S. destruct (join_texts kept "and") as (k2 & K2 & E2).
    assert (k2 = kept) as -> by (rewrite <- K2, <- K; clear; induction l as [|x l IH]; [reflexivity|]; cbn [filter]; destruct (nonempty x && nonempty (strip x)) eqn:X; [cbn [filter]; rewrite X, IH; reflexivity|exact IH]).
    rewrite E, <- E2. exact S. }
  split; [|split].
  - destruct kept as [|x kept]; [|right; apply J; discriminate]. left. rewrite E. cbn [some]. split; [left; reflexivity|]. intros p Pp. apply F2; [exact Pp|]. inversion F1. constructor.
  - intros X. apply J. apply Exists_exists in X. destruct X as (x & I & S). intros N. rewrite <- K in N. destruct (solid_kept x S) as (K1 & K2).
    assert (I' : In x (filter (fun x => nonempty x && nonempty (strip x)) l)) by (apply filter_In; rewrite K1, K2; auto). rewrite N in I'. destruct I'.
  - intros B. rewrite E. replace kept with (@nil string); [reflexivity|]. rewrite <- K. clear - B. induction l as [|x l IH]; [reflexivity|]. cbn [filter].
    rewrite (blank_dropped x) by (apply B; left; reflexivity). apply IH. intros y I. apply B. right. exact I.
Qed.
Lemma states_not local P a d A D : states local P a A -> states local P d D -> states local P (join_conditionals [a; d] "and not") (fun p => A p /\ ~ D p).
Proof.
  intros (Sa & ta & ca & La & Ma & Ha) (Sd & td & cd & Ld & Md & Hd). unfold join_conditionals. cbn [filter]. destruct (solid_kept a Sa) as (A1 & A2). destruct (solid_kept d Sd) as (D1 & D2).
  rewrite A1, D1. cbn [filter]. rewrite A2, D2. cbn [map some]. rewrite (solid_strip a Sa), (solid_strip d Sd). split; [apply solid_paren|].
  destruct (means_not local ta td ca cd Ma Md) as (e & M & H). exists ("(" :: ta ++ "and" :: "not" :: td ++ [")"]), e. split; [|split; [exact M|]].
  - replace ("(" :: ta ++ "and" :: "not" :: td ++ [")"]) with ("(" :: (ta ++ "and" :: "not" :: td) ++ [")"]) by (rewrite <- app_assoc; reflexivity).
    apply lexes_paren. cbn [join]. apply (lexes_blank a ("and" ++ " " ++ "not" ++ " " ++ d) ta ("and" :: "not" :: td)); [exact La|].
    apply (lexes_blank "and" ("not" ++ " " ++ d) ["and"] ("not" :: td)); [apply lexes_word; split; [discriminate|reflexivity]|].
    apply (lexes_blank "not" d ["not"] td); [apply lexes_word; split; [discriminate|reflexivity]|exact Ld].
  - intros p Pp. rewrite H, (Ha p Pp), (Hd p Pp). reflexivity.
Qed.
Lemma states_one local P a d A op : states local P a A -> blank_text d -> states local P (join_conditionals [a; d] op) A.
Proof.
  intros (Sa & ta & ca & La & Ma & Ha) B. unfold join_conditionals. rewrite filter_twice. cbn [filter]. destruct (solid_kept a Sa) as (A1 & A2). rewrite A1, A2, (blank_dropped d B).
  cbn [andb map some join]. rewrite (solid_strip a Sa). split; [apply solid_paren|].
  assert (F : Forall2 (means local) [ta] [ca]) by (constructor; [exact Ma|constructor]). destruct (means_join local true [ta] [ca] F) as (c & M & H); [discriminate|].
  exists ("(" :: ta ++ [")"]), c. split; [apply lexes_paren, La|]. split; [exact M|]. intros p Pp. rewrite H, Forall_cons_iff, (Ha p Pp). split; [intros (X & _); exact X|intros X; split; [exact X|constructor]].
Qed.
Lemma states_read local P s C : states local P s C -> exists c, read_pcap local (s ++ String newline "")%string = Some c /\ forall p, P p -> c p <-> C p.
Proof.
  intros (S & ts & c & L & M & H). exists c. split; [|exact H]. unfold read_pcap. pose proof (lexes_newline s ts L "" Logic.I) as W. rewrite str_app_nil in W. cbn [pc_words flush nonempty] in W. rewrite app_nil_r in W. rewrite W.
  pose proof (M [] empty_frame (mkFrame (Some c) None false) [] eq_refl) as R. rewrite app_nil_r in R. destruct ts as [|t ts]; [discriminate R|].
  rewrite R. reflexivity.
Qed.
