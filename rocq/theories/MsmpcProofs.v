(** Proofs about MS-MPC applications. *)
From Coq Require Import Lia ZifyBool ZifyNat.
From Verif Require Import SpecMsmpc BaseFacts PyStrFacts TextProofs PortProofs GenProofs GenProofs2 CiscoProofs CiscoProofs2 JuniperText JuniperProofs SrxText SrxRead SrxApps EvoProofs.
Local Open Scope string_scope.
Local Open Scope list_scope.
Local Open Scope Z_scope.

Notation numbered := ModelSrx.numbered.

(** ** Names *)
Definition set_name (n : string) : string := (n ++ "-app")%string.
Definition app_part (n : string) (k : Z) : string := (n ++ "-app" ++ dec k)%string.
Lemma set_name_inj a b : set_name a = set_name b -> a = b.
Proof.
  unfold set_name. intros E. apply (f_equal (fun s => (s ++ "")%string)) in E. rewrite !str_app_assoc, !app_split in E.
  apply last_char in E; [|reflexivity..]. destruct E as (E & _). change "-ap" with ("-a" ++ String "p" "")%string in E. rewrite <- !str_app_assoc in E.
  apply last_char in E; [|reflexivity..]. destruct E as (E & _). change "-a" with ("-" ++ String "a" "")%string in E. rewrite <- !str_app_assoc in E.
  apply last_char in E; [|reflexivity..]. destruct E as (E & _). change "-" with (String "-" "") in E. apply last_char in E; [apply E|reflexivity..].
Qed.
Lemma app_part_inj a b j k : 0 <= j -> 0 <= k -> app_part a j = app_part b k -> a = b /\ j = k.
Proof.
  unfold app_part. intros J K E. rewrite !app_split in E. apply last_char in E; [|apply dec_no_p, J|apply dec_no_p, K]. destruct E as (E1 & E2). split.
  - apply set_name_inj. unfold set_name. change "-app" with ("-ap" ++ "p")%string. rewrite <- !str_app_assoc, E1. reflexivity.
  - exact (dec_inj j k J K E2).
Qed.
Lemma sub_chars f s : forall n m, forall_char f s = true -> forall_char f (substring n m s) = true.
Proof.
  induction s as [|c s IH]; intros n m H; [destruct n, m; reflexivity|]. cbn [forall_char] in H. apply andb_prop in H. destruct H as (A & B).
  destruct n as [|n]; [destruct m as [|m]; [reflexivity|]|]; cbn [substring forall_char]; [rewrite A; cbn [andb]|]; apply IH, B.
Qed.
Lemma ms_name_plain f t : plain_word f -> forall_char plain_char t = true -> plain_word (ms_name f t).
Proof.
  intros (N & P) Q. unfold ms_name. apply plain_cat; [|apply sub_chars, Q]. split; [|apply sub_chars, P].
  destruct f as [|c f]; [congruence|]. cbn [substring]. discriminate.
Qed.

(** ** Lists *)
Lemma numbered_map {A B} (f : A -> B) l : forall k, numbered k (map f l) = map (fun kx => (fst kx, f (snd kx))) (numbered k l).
Proof. induction l as [|x l IH]; intros k; [reflexivity|]. cbn [map numbered fst snd]. rewrite IH. reflexivity. Qed.
Lemma map_flat {A B C} (f : B -> C) (g : A -> list B) l : map f (flat_map g l) = flat_map (fun x => map f (g x)) l.
Proof. induction l as [|x l IH]; [reflexivity|]. cbn [flat_map]. rewrite map_app, IH. reflexivity. Qed.
Lemma flat_map_sing {A B} (f : A -> B) l : flat_map (fun x => [f x]) l = map f l.
Proof. induction l as [|x l IH]; [reflexivity|]. cbn [flat_map map app]. rewrite IH. reflexivity. Qed.
Lemma filter_all {A} (f : A -> bool) l : (forall x, In x l -> f x = true) -> filter f l = l.
Proof. induction l as [|x l IH]; intros H; [reflexivity|]. cbn [filter]. rewrite (H x (or_introl eq_refl)). f_equal. apply IH. intros; apply H; right; assumption. Qed.
Lemma same_list_spec {A} (eqb : A -> A -> bool) (E : forall x y, eqb x y = true <-> x = y) a : forall b, same_list eqb a b = true <-> a = b.
Proof.
  induction a as [|x a IH]; intros [|y b]; cbn [same_list]; [tauto|split; discriminate..|].
  rewrite andb_true_iff, E, IH. split; [intros (-> & ->); reflexivity|intros X; injection X; auto].
Qed.
Lemma ms_same_spec a b : ms_same a b = true <-> a = b.
Proof.
  unfold ms_same. rewrite !andb_true_iff, !(same_list_spec String.eqb String.eqb_eq), !(same_list_spec Z.eqb Z.eqb_eq). destruct a, b; cbn. split.
  - intros ((((-> & ->) & ->) & ->) & ->). reflexivity.
  - intros X. injection X. auto.
Qed.

(** ** Terms *)
Lemma ms_find_some n a l m : ms_find n a l = Ok (Some m) -> In (m, a) l.
Proof.
  induction l as [|(k, b) l IH]; cbn [ms_find]; [discriminate|]. destruct (ms_same a b) eqn:S.
  - intros E. injection E as ->. apply ms_same_spec in S. subst. left. reflexivity.
  - destruct (String.eqb n k); [discriminate|]. intros E. right. apply IH, E.
Qed.
Lemma ms_find_none n a l : ms_find n a l = Ok None -> ~ In n (map fst l).
Proof.
  induction l as [|(k, b) l IH]; cbn [ms_find map fst In]; [intros _ []|]. destruct (ms_same a b); [discriminate|].
  destruct (String.eqb n k) eqn:Q; [discriminate|]. apply String.eqb_neq in Q. intros E [X|X]; [congruence|exact (IH E X)].
Qed.
Lemma ms_terms_spec today f terms : forall seen apps apps' used, ms_terms today f seen apps terms = Ok (apps', used) -> NoDup (map fst apps) ->
  NoDup (map fst apps') /\ incl apps apps' /\ map fst used = filter (rendered today) terms /\
  (forall t n, In (t, n) used -> exists a, ms_app_of t = Ok a /\ In (n, a) apps') /\
  (forall n a, In (n, a) apps' -> In (n, a) apps \/ exists t, In t (map fst used) /\ ms_app_of t = Ok a /\ n = ms_name f (t_name t)).
Proof.
  induction terms as [|t terms IH]; intros seen apps apps' used H N; cbn [ms_terms filter] in *.
  - injection H as <- <-. repeat split; [exact N|apply incl_refl|intros ? ? []|auto].
  - unfold rendered at 1. destruct (t_stateless_reply t); cbn [negb andb]; [exact (IH _ _ _ _ H N)|].
    destruct (str_in "established" (t_option t) || str_in "tcp-established" (t_option t)); cbn [negb andb]; [exact (IH _ _ _ _ H N)|].
    destruct (str_in (t_name t) seen); [discriminate|]. destruct (expired today t); cbn [negb]; [exact (IH _ _ _ _ H N)|].
    destruct (ms_app_of t) as [a|e] eqn:A; cbn [bind] in H; [|discriminate].
    destruct (ms_find (ms_name f (t_name t)) a apps) as [[m|]|e] eqn:F; cbn [bind] in H; [| |discriminate].
    + destruct (ms_terms today f (t_name t :: seen) apps terms) as [(r1, r2)|e] eqn:R; cbn [bind fst snd] in H; [|discriminate]. injection H as <- <-.
      destruct (IH _ _ _ _ R N) as (H1 & H2 & H3 & H4 & H5). split; [exact H1|]. split; [exact H2|]. split; [cbn [map fst]; rewrite H3; reflexivity|]. split.
      * intros t' n [X|X]; [|apply H4, X]. injection X as <- <-. exists a. split; [exact A|apply H2, (ms_find_some _ _ _ _ F)].
      * intros n b X. destruct (H5 n b X) as [Y|(t' & Y & Z)]; [auto|]. right. exists t'. split; [right; exact Y|exact Z].
    + destruct (ms_terms today f (t_name t :: seen) (apps ++ [(ms_name f (t_name t), a)]) terms) as [(r1, r2)|e] eqn:R; cbn [bind fst snd] in H; [|discriminate]. injection H as <- <-.
      assert (N' : NoDup (map fst (apps ++ [(ms_name f (t_name t), a)]))).
      { rewrite map_app. cbn [map fst]. apply (Permutation.Permutation_NoDup (Permutation.Permutation_cons_append _ _)). constructor; [apply (ms_find_none _ _ _ F)|exact N]. }
      destruct (IH _ _ _ _ R N') as (H1 & H2 & H3 & H4 & H5). split; [exact H1|]. split; [intros x X; apply H2, in_app_iff; left; exact X|].
      split; [cbn [map fst]; rewrite H3; reflexivity|]. split.
      * intros t' n [X|X]; [|apply H4, X]. injection X as <- <-. exists a. split; [exact A|apply H2, in_app_iff; right; left; reflexivity].
      * intros n b X. destruct (H5 n b X) as [Y|(t' & Y & Z)].
        -- apply in_app_iff in Y. destruct Y as [Y|[Y|[]]]; [auto|]. injection Y as <- <-. right. exists t. split; [left; reflexivity|auto].
        -- right. exists t'. split; [right; exact Y|exact Z].
Qed.

(** ** Statements *)
Notation triple := (option string * option string * option string)%type.
Definition combos3 (a : ms_app) : list triple :=
  flat_map (fun q => flat_map (fun s => map (fun d => (q, s, d)) (or_blank (ms_dport a))) (or_blank (ms_sport a))) (or_blank (ms_protocol a)).
Definition leafs (k : string) (o : option string) : list stmt := match o with Some w => [Leaf [k; w]] | None => [] end.
Definition ms_body (c : triple) : list stmt :=
  leafs "protocol" (fst (fst c)) ++ (if ms_ported (fst (fst c)) then leafs "source-port" (snd (fst c)) ++ leafs "destination-port" (snd c) else []).
Definition chunk3 (c : triple) : list string := ms_chunks (fst (fst c)) (snd (fst c)) (snd c).
Record app_fine (a : ms_app) : Prop := {
  af_types : forall n, In n (ms_types a) -> 0 <= n; af_codes : ms_codes a = []; af_some : ms_protocol a <> []; af_protocol : plain_words (ms_protocol a);
  af_sport : plain_words (ms_sport a); af_dport : plain_words (ms_dport a) }.
Lemma blank_in {A} (l : list A) o : In o (or_blank l) <-> (l = [] /\ o = None) \/ exists x, o = Some x /\ In x l.
Proof.
  unfold or_blank. destruct l as [|y l].
  - cbn [In]. split; [intros [<-|[]]; auto|intros [(_ & ->)|(x & _ & [])]; auto].
  - rewrite in_map_iff. split; [intros (x & <- & I); right; exists x; auto|intros [(X & _)|(x & -> & I)]; [discriminate|exists x; auto]].
Qed.
Lemma combos3_in a q s d : In (q, s, d) (combos3 a) <-> In q (or_blank (ms_protocol a)) /\ In s (or_blank (ms_sport a)) /\ In d (or_blank (ms_dport a)).
Proof.
  unfold combos3. rewrite in_flat_map. split.
  - intros (q' & Q & I). apply in_flat_map in I. destruct I as (s' & S & I). apply in_map_iff in I. destruct I as (d' & E & D). injection E as <- <- <-. auto.
  - intros (Q & S & D). exists q. split; [exact Q|]. apply in_flat_map. exists s. split; [exact S|]. apply in_map_iff. exists d. auto.
Qed.
Definition icmp_lines (q : string) (c : Z) : list string :=
  (if String.eqb q "icmp" then ["application-protocol icmp;"] else []) ++ [("protocol " ++ q ++ ";")%string; (q ++ "-type " ++ dec c ++ ";")%string] ++ [] ++ ["inactivity-timeout 60;"].
Definition icmp_body (q : string) (c : Z) : list stmt :=
  (if String.eqb q "icmp" then [Leaf ["application-protocol"; "icmp"]] else []) ++ [Leaf ["protocol"; q]; Leaf [(q ++ "-type")%string; dec c]; Leaf ["inactivity-timeout"; "60"]].
(** The lines of the parts of an entry, each with what it reads as. *)
Definition pairs (a : ms_app) : list (list string * list stmt) :=
  if some (ms_types a) then flat_map (fun c => map (fun q => (icmp_lines q c, icmp_body q c)) (ms_protocol a)) (ms_types a)
  else map (fun c => (chunk3 c, ms_body c)) (combos3 a).
Lemma parts3 a : app_fine a -> ms_all a = map (fun kx => (fst kx, fst (snd kx))) (numbered 1 (pairs a)).
Proof.
  intros F. unfold ms_all. rewrite <- numbered_map. unfold pairs. destruct (some (ms_types a)).
  - unfold ms_icmp_parts. f_equal. rewrite (af_codes _ F). rewrite map_flat. apply flat_map_ext. intros c. rewrite map_map. reflexivity.
  - unfold ms_parts. f_equal.
    assert (E : flat_map (fun q => flat_map (fun s => map (ms_chunks q s) (or_blank (ms_dport a))) (or_blank (ms_sport a))) (or_blank (ms_protocol a)) = map chunk3 (combos3 a)).
    { unfold combos3. rewrite map_flat. apply flat_map_ext. intros q. rewrite map_flat. apply flat_map_ext. intros s. rewrite map_map. reflexivity. }
    rewrite E, map_map. apply filter_all. intros c I. apply in_map_iff in I. destruct I as (((q, s), d) & <- & I). apply combos3_in in I. destruct I as (Q & _ & _).
    apply blank_in in Q. destruct Q as [(X & _)|(w & -> & _)]; [destruct (af_some _ F X)|]. reflexivity.
Qed.
Lemma line_renders k o : plain_word k -> (forall w, o = Some w -> plain_word w) -> renders (ms_line k o) (leafs k o) /\ forallb stmt_ok (leafs k o) = true.
Proof.
  intros K P. destruct o as [w|]; [|split; [apply renders_nil|reflexivity]]. cbn [ms_line leafs].
  apply (group_renders k [w] K). intros x [<-|[]]. apply P. reflexivity.
Qed.
Lemma body_renders a c : app_fine a -> In c (combos3 a) -> renders (chunk3 c) (ms_body c) /\ forallb stmt_ok (ms_body c) = true.
Proof.
  intros F I. destruct c as ((q, s), d). apply combos3_in in I. destruct I as (Q & S & D). unfold chunk3, ms_chunks, ms_body. cbn [fst snd].
  assert (P : forall l o, plain_words l -> In o (or_blank l) -> forall w, o = Some w -> plain_word w).
  { intros l o W I w ->. apply blank_in in I. destruct I as [(_ & X)|(x & X & J)]; [discriminate|]. injection X as ->. apply W, J. }
  destruct (line_renders "protocol" q) as (A1 & A2); [apply plain_lit; reflexivity|exact (P _ _ (af_protocol _ F) Q)|].
  destruct (line_renders "source-port" s) as (B1 & B2); [apply plain_lit; reflexivity|exact (P _ _ (af_sport _ F) S)|].
  destruct (line_renders "destination-port" d) as (C1 & C2); [apply plain_lit; reflexivity|exact (P _ _ (af_dport _ F) D)|].
  destruct (ms_ported q).
  - split; [apply renders_app; [exact A1|apply renders_app; assumption]|rewrite !forallb_app, A2, B2, C2; reflexivity].
  - split; [apply renders_app; [exact A1|apply renders_nil]|rewrite forallb_app, A2; reflexivity].
Qed.
Lemma icmp_renders q c : plain_word q -> 0 <= c -> renders (icmp_lines q c) (icmp_body q c) /\ forallb stmt_ok (icmp_body q c) = true.
Proof.
  intros Q C. unfold icmp_lines, icmp_body. cbn [app].
  destruct (line_renders "protocol" (Some q)) as (A1 & A2); [apply plain_lit; reflexivity|intros w E; injection E as <-; exact Q|].
  destruct (line_renders (q ++ "-type")%string (Some (dec c))) as (B1 & B2); [apply plain_cat; [exact Q|reflexivity]|intros w E; injection E as <-; apply dec_plain, C|].
  destruct (line_renders "inactivity-timeout" (Some "60")) as (C1 & C2); [apply plain_lit; reflexivity|intros w E; injection E as <-; apply plain_lit; reflexivity|].
  cbn [ms_line leafs] in *. rewrite !str_app_assoc in B1.
  assert (R : renders [("protocol " ++ q ++ ";")%string; (q ++ "-type " ++ dec c ++ ";")%string; "inactivity-timeout 60;"]
    [Leaf ["protocol"; q]; Leaf [(q ++ "-type")%string; dec c]; Leaf ["inactivity-timeout"; "60"]]).
  { apply (renders_app [_] [_; _] [_] [_; _] A1). apply (renders_app [_] [_] [_] [_] B1 C1). }
  assert (K : forallb stmt_ok [Leaf ["protocol"; q]; Leaf [(q ++ "-type")%string; dec c]; Leaf ["inactivity-timeout"; "60"]] = true).
  { cbn [forallb] in *. rewrite andb_true_r in A2, B2, C2. rewrite A2, B2, C2. reflexivity. }
  destruct (String.eqb q "icmp"); [|split; assumption].
  destruct (line_renders "application-protocol" (Some "icmp")) as (D1 & D2); [apply plain_lit; reflexivity|intros w E; injection E as <-; apply plain_lit; reflexivity|].
  split; [apply renders_app; [exact D1|exact R]|]. rewrite forallb_app. apply andb_true_iff. split; [exact D2|exact K].
Qed.
Lemma pair_renders a x : app_fine a -> In x (pairs a) -> renders (fst x) (snd x) /\ forallb stmt_ok (snd x) = true.
Proof.
  intros F I. unfold pairs in I. destruct (some (ms_types a)).
  - apply in_flat_map in I. destruct I as (c & C & I). apply in_map_iff in I. destruct I as (q & <- & Q). cbn [fst snd]. apply icmp_renders; [apply (af_protocol _ F), Q|apply (af_types _ F), C].
  - apply in_map_iff in I. destruct I as (c & <- & I). exact (body_renders a c F I).
Qed.
Definition def_stmts (na : string * ms_app) : list stmt :=
  map (fun kx => Block ["application"; app_part (fst na) (fst kx)] (snd (snd kx))) (numbered 1 (pairs (snd na))).
Definition set_stmt (na : string * ms_app) : stmt :=
  Block ["application-set"; set_name (fst na)] (map (fun kx => Leaf ["application"; app_part (fst na) (fst kx)]) (numbered 1 (pairs (snd na)))).
Lemma part_plain n k : plain_word n -> 0 <= k -> plain_word (app_part n k).
Proof. intros P K. unfold app_part. apply plain_cat; [exact P|]. apply forall_char_cat; [reflexivity|apply dec_plain_chars, K]. Qed.
Lemma set_plain n : plain_word n -> plain_word (set_name n).
Proof. intros P. apply plain_cat; [exact P|reflexivity]. Qed.
Lemma two_plain k w : plain_word k -> plain_word w -> plain_words [k; w].
Proof. intros A B. apply plain_cons; [exact A|apply plain_cons; [exact B|apply plain_nil]]. Qed.
Lemma defs_renders na : plain_word (fst na) -> app_fine (snd na) -> renders (ms_defs na) (def_stmts na) /\ forallb stmt_ok (def_stmts na) = true.
Proof.
  intros N F. unfold ms_defs, def_stmts. rewrite (parts3 _ F). split.
  - rewrite flat_map_concat_map, map_map, <- flat_map_concat_map. apply renders_map. intros (k, c) I. cbn [fst snd].
    pose proof (numbered_ge _ _ _ _ I) as K. assert (J : In c (pairs (snd na))) by (apply (numbered_in _ 1); exists k; exact I).
    apply renders_block; [|apply (pair_renders _ _ F J)]. pose proof (chunk_open ["application"; app_part (fst na) k]) as C.
    cbn [join] in C. unfold app_part in C. cbn [append] in C. rewrite !str_app_assoc in C. apply C; [|discriminate].
    apply two_plain; [apply plain_lit; reflexivity|apply part_plain; [exact N|lia]].
  - apply forallb_forall. intros s I. apply in_map_iff in I. destruct I as ((k, c) & <- & I). cbn [fst snd].
    pose proof (numbered_ge _ _ _ _ I) as K. assert (J : In c (pairs (snd na))) by (apply (numbered_in _ 1); exists k; exact I).
    change (forallb word_ok ["application"; app_part (fst na) k] && forallb stmt_ok (snd c) = true).
    rewrite (proj2 (pair_renders _ _ F J)), plain_oks; [reflexivity|]. apply two_plain; [apply plain_lit; reflexivity|apply part_plain; [exact N|lia]].
Qed.
Lemma set_renders na : plain_word (fst na) -> app_fine (snd na) -> renders (ms_set na) [set_stmt na] /\ stmt_ok (set_stmt na) = true.
Proof.
  intros N F. unfold ms_set, set_stmt. rewrite (parts3 _ F). rewrite map_map. cbn [fst snd]. split.
  - apply renders_block.
    + pose proof (chunk_open ["application-set"; set_name (fst na)]) as C. cbn [join] in C. unfold set_name in C. cbn [append] in C. rewrite !str_app_assoc in C. apply C; [|discriminate].
      apply two_plain; [apply plain_lit; reflexivity|apply set_plain, N].
    + rewrite <- (flat_map_sing (fun kx : Z * (list string * list stmt) => ("application " ++ fst na ++ "-app" ++ dec (fst kx) ++ ";")%string)). apply renders_map. intros (k, c) I. cbn [fst snd].
      pose proof (numbered_ge _ _ _ _ I) as K. apply renders_line. pose proof (chunk_semi ["application"; app_part (fst na) k]) as C.
      cbn [join] in C. unfold app_part in C. cbn [append] in C. rewrite !str_app_assoc in C. apply C; [|discriminate].
      apply two_plain; [apply plain_lit; reflexivity|apply part_plain; [exact N|lia]].
  - match goal with |- stmt_ok (Block ?ws ?b) = true => change (forallb word_ok ws && forallb stmt_ok b = true) end.
    rewrite plain_oks by (apply two_plain; [apply plain_lit; reflexivity|apply set_plain, N]). cbn [andb].
    apply forallb_forall. intros s I. apply in_map_iff in I. destruct I as ((k, c) & <- & I). cbn [fst]. pose proof (numbered_ge _ _ _ _ I) as K.
    match goal with |- stmt_ok (Leaf ?ws) = true => change (forallb word_ok ws = true) end. apply plain_oks, two_plain; [apply plain_lit; reflexivity|apply part_plain; [exact N|lia]].
Qed.
Definition conf_defs (l : list (string * ms_app)) : list stmt := flat_map def_stmts l ++ map set_stmt l.
Lemma renders_flat {A} (f : A -> list string) (g : A -> list stmt) l : (forall x, In x l -> renders (f x) (g x)) -> renders (flat_map f l) (flat_map g l).
Proof.
  induction l as [|x l IH]; intros H; [apply renders_nil|]. cbn [flat_map]. apply renders_app; [apply H; left; reflexivity|]. apply IH. intros; apply H; right; assumption.
Qed.
Lemma conf_read l : l <> [] -> (forall na, In na l -> plain_word (fst na) /\ app_fine (snd na)) ->
  statements (["applications {"] ++ flat_map ms_defs l ++ flat_map ms_set l ++ ["}"]) = Some [Block ["applications"] (conf_defs l)].
Proof.
  intros _ H. apply renders_statements.
  - rewrite (app_assoc (flat_map ms_defs l)). apply renders_block.
    + apply (chunk_open ["applications"]); [apply plain_cons; [apply plain_lit; reflexivity|apply plain_nil]|discriminate].
    + apply renders_app; [apply renders_flat; intros na I; apply defs_renders; apply H, I|].
      apply renders_map. intros na I. apply set_renders; apply H, I.
  - cbn [forallb]. rewrite andb_true_r. change (word_ok "applications" && true && forallb stmt_ok (conf_defs l) = true). cbn [andb].
    unfold conf_defs. rewrite forallb_app. apply andb_true_iff. split; [reflexivity|]. apply andb_true_iff. split; apply forallb_forall; intros s I.
    + apply in_flat_map in I. destruct I as (na & I & J). pose proof (proj2 (defs_renders na (proj1 (H na I)) (proj2 (H na I)))) as X. rewrite forallb_forall in X. apply X, J.
    + apply in_map_iff in I. destruct I as (na & <- & I). apply set_renders; apply H, I.
Qed.
(** A set of the configuration is matched if some part of the only entry of its name is. *)
Lemma set_meaning l n a p : NoDup (map fst l) -> In (n, a) l ->
  (set_matches [Block ["applications"] (conf_defs l)] (set_name n) p <-> exists c, In c (pairs a) /\ forall s, In s (snd c) -> ms_holds p s).
Proof.
  intros N I. assert (U : forall b, In (n, b) l -> b = a).
  { intros b J. clear - N I J. induction l as [|(m, x) l IH]; [destruct I|]. cbn [map fst] in N. inversion N as [|? ? X N']; subst.
    destruct I as [I|I], J as [J|J]; [congruence| | |exact (IH N' I J)].
    - injection I as <- <-. destruct X. apply in_map_iff. exists (m, b). auto.
    - injection J as <- <-. destruct X. apply in_map_iff. exists (m, a). auto. }
  split.
  - intros (defs & members & m & body & [E|[]] & S & M & D & H). injection E as <-. unfold conf_defs in S, D. apply in_app_iff in S, D.
    assert (S' : exists na, In na l /\ set_stmt na = Block ["application-set"; set_name n] members).
    { destruct S as [S|S]; [|apply in_map_iff in S; destruct S as (na & X & Y); exists na; auto].
      apply in_flat_map in S. destruct S as (na & _ & S). apply in_map_iff in S. destruct S as (kx & X & _). discriminate X. }
    destruct S' as ((n1, a1) & I1 & E1). unfold set_stmt in E1. cbn [fst snd] in E1.
    assert (E2 := f_equal (fun s => match s with Block [_; w] _ => w | _ => "" end) E1). cbn in E2. apply set_name_inj in E2. subst n1.
    assert (E3 := f_equal (fun s => match s with Block _ b => b | _ => [] end) E1). cbn in E3. subst members. pose proof (U _ I1) as ->. clear I1 E1.
    apply in_map_iff in M. destruct M as ((k, c) & X & M). injection X as X. cbn [fst] in X.
    destruct D as [D|D]; [|apply in_map_iff in D; destruct D as (na & Y & _); discriminate Y].
    apply in_flat_map in D. destruct D as ((n2, a2) & I2 & D). apply in_map_iff in D. destruct D as ((k2, c2) & Y & D). cbn [fst snd] in Y.
    injection Y as Y1 Y2. rewrite <- X in Y1. cbn [fst snd] in D. pose proof (numbered_ge _ _ _ _ M). pose proof (numbered_ge _ _ _ _ D).
    apply app_part_inj in Y1; [|lia..]. destruct Y1 as (-> & ->). pose proof (U _ I2) as ->.
    exists c2. split; [apply (numbered_in _ 1); exists k; exact D|]. rewrite Y2. exact H.
  - intros (c & J & H). apply (numbered_in _ 1) in J. destruct J as (k & J).
    exists (conf_defs l), (map (fun kx => Leaf ["application"; app_part n (fst kx)]) (numbered 1 (pairs a))), (app_part n k), (snd c).
    split; [left; reflexivity|]. split; [apply in_app_iff; right; apply in_map_iff; exists (n, a); split; [reflexivity|exact I]|].
    split; [apply in_map_iff; exists (k, c); split; [reflexivity|exact J]|]. split; [|exact H].
    apply in_app_iff. left. apply in_flat_map. exists (n, a). split; [exact I|]. apply in_map_iff. exists (k, c). split; [reflexivity|exact J].
Qed.

(** ** What a part says *)
Definition w6 (q : string) : string := if String.eqb q "icmpv6" then "icmp6" else ms_word q.
Definition tcp_udp (q : string) : bool := String.eqb q "udp" || String.eqb q "tcp".
Lemma word_icmp6 q : In q (map fst proto_map) -> String.eqb (ms_word q) "icmpv6" = String.eqb q "icmpv6".
Proof. revert q. apply (known_ind (fun q => String.eqb (ms_word q) "icmpv6" = String.eqb q "icmpv6")). repeat constructor. Qed.
Lemma w6_ported q : In q (map fst proto_map) -> ms_ported (Some (w6 q)) = tcp_udp q.
Proof. revert q. apply (known_ind (fun q => ms_ported (Some (w6 q)) = tcp_udp q)). repeat constructor. Qed.
Lemma w6_plain q : In q (map fst proto_map) -> plain_word (w6 q).
Proof. revert q. apply (known_ind (fun q => plain_word (w6 q))). repeat (apply Forall_cons; [split; [discriminate|reflexivity]|]); apply Forall_nil. Qed.
Lemma word_tcp k q : k = "tcp" \/ k = "udp" -> In q (map fst proto_map) -> ms_word q = k <-> q = k.
Proof. intros [->| ->]; revert q; [apply (known_ind (fun q => ms_word q = "tcp" <-> q = "tcp"))|apply (known_ind (fun q => ms_word q = "udp" <-> q = "udp"))];
  repeat (apply Forall_cons; [split; intros X; first [reflexivity|discriminate X|exact X]|]); apply Forall_nil. Qed.
Lemma w6_value q : In q (map fst proto_map) -> q <> "all" -> match numeral_value (w6 q) with
  | Some n => In (q, n) proto_map
  | None => (if String.eqb (w6 q) "icmp6" then "icmpv6" else if String.eqb (w6 q) "hop-by-hop" then "hopopt" else w6 q) = q end.
Proof.
  revert q. apply (known_ind (fun q => q <> "all" -> match numeral_value (w6 q) with
  | Some n => In (q, n) proto_map
  | None => (if String.eqb (w6 q) "icmp6" then "icmpv6" else if String.eqb (w6 q) "hop-by-hop" then "hopopt" else w6 q) = q end)).
  repeat (apply Forall_cons; [intros X; first [destruct (X eq_refl)|vm_compute; first [reflexivity|tauto]]|]); apply Forall_nil.
Qed.
Lemma w6_says q p : In q (map fst proto_map) -> q <> "all" -> protocol_word (w6 q) p <-> p_proto p = q.
Proof.
  intros I J. pose proof (w6_value q I J) as V. unfold protocol_word. destruct (numeral_value (w6 q)) as [n|]; [apply num_says, V|]. rewrite V. reflexivity.
Qed.
Lemma icmp6_map l : NoDup l -> (forall q, In q l -> In q (map fst proto_map)) -> ms_icmp6 (map ms_word l) = map w6 l.
Proof.
  induction l as [|x l IH]; intros N K; [reflexivity|]. inversion N as [|? ? X N']; subst. cbn [map ms_icmp6]. rewrite (word_icmp6 x) by (apply K; left; reflexivity).
  unfold w6 at 1. destruct (String.eqb x "icmpv6") eqn:E.
  - f_equal. apply map_ext_in. intros q I. unfold w6. destruct (String.eqb q "icmpv6") eqn:G; [|reflexivity]. apply String.eqb_eq in E, G. subst. destruct (X I).
  - f_equal. apply IH; [exact N'|]. intros q I. apply K. right. exact I.
Qed.
Lemma w6_device q : In q (map fst proto_map) -> q <> "all" -> device_word (w6 q).
Proof.
  revert q. apply (known_ind (fun q => q <> "all" -> device_word (w6 q))).
  repeat (apply Forall_cons; [intros X; first [destruct (X eq_refl)|left; vm_compute; discriminate|right; vm_compute; tauto]|]); apply Forall_nil.
Qed.
Lemma protocol_leaf w p : plain_word w -> device_word w -> ms_holds p (Leaf ["protocol"; w]) <-> protocol_word w p.
Proof.
  intros P D. change (device_word w /\ one_of (fun w => protocol_word w p) (gw [w]) <-> protocol_word w p). rewrite one_of_gw by (apply plain_cons; [exact P|apply plain_nil]).
  split; [intros (_ & x & [<-|[]] & H); exact H|intros H; split; [exact D|exists w; split; [left; reflexivity|exact H]]].
Qed.
Lemma sport_leaf w p : plain_word w -> ms_holds p (Leaf ["source-port"; w]) <-> in_text_range w (p_sport p).
Proof.
  intros P. change (one_of (fun w => in_text_range w (p_sport p)) (gw [w]) <-> in_text_range w (p_sport p)). rewrite one_of_gw by (apply plain_cons; [exact P|apply plain_nil]).
  split; [intros (x & [<-|[]] & H); exact H|intros H; exists w; split; [left; reflexivity|exact H]].
Qed.
Lemma dport_leaf w p : plain_word w -> ms_holds p (Leaf ["destination-port"; w]) <-> in_text_range w (p_dport p).
Proof.
  intros P. change (one_of (fun w => in_text_range w (p_dport p)) (gw [w]) <-> in_text_range w (p_dport p)). rewrite one_of_gw by (apply plain_cons; [exact P|apply plain_nil]).
  split; [intros (x & [<-|[]] & H); exact H|intros H; exists w; split; [left; reflexivity|exact H]].
Qed.
(** One of the ports written, or none is. *)
Definition port_says (o : option string) (n : Z) : Prop := match o with Some w => in_text_range w n | None => True end.
Lemma body_says q s d p : plain_word q -> device_word q -> (forall w, s = Some w -> plain_word w) -> (forall w, d = Some w -> plain_word w) ->
  (forall x, In x (ms_body (Some q, s, d)) -> ms_holds p x) <->
  protocol_word q p /\ (ms_ported (Some q) = true -> port_says s (p_sport p) /\ port_says d (p_dport p)).
Proof.
  intros Q V S D. unfold ms_body. cbn [fst snd leafs app]. split.
  - intros H. split; [apply (protocol_leaf q p Q V), H; left; reflexivity|]. intros E. rewrite E in H. split.
    + destruct s as [w|]; [|exact I]. apply (sport_leaf w p (S w eq_refl)), H. right. left. reflexivity.
    + destruct d as [w|]; [|exact I]. apply (dport_leaf w p (D w eq_refl)), H. right. apply in_app_iff. right. left. reflexivity.
  - intros (A & B) x [<-|X]; [apply (protocol_leaf q p Q V), A|]. destruct (ms_ported (Some q)); [|destruct X]. destruct (B eq_refl) as (B1 & B2).
    apply in_app_iff in X. destruct X as [X|X].
    + destruct s as [w|]; [|destruct X]. destruct X as [<-|[]]. apply (sport_leaf w p (S w eq_refl)), B1.
    + destruct d as [w|]; [|destruct X]. destruct X as [<-|[]]. apply (dport_leaf w p (D w eq_refl)), B2.
Qed.
Lemma blank_ports l n : (forall r, In r l -> 0 <= fst r /\ 0 <= snd r) -> (exists o, In o (or_blank (map port_text l)) /\ port_says o n) <-> ports_match l n.
Proof.
  intros P. unfold ports_match, in_ports. split.
  - intros (o & I & H). apply blank_in in I. destruct I as [(E & _)|(w & -> & I)]; [left; apply map_nil in E; exact E|right].
    apply in_map_iff in I. destruct I as (r & <- & I). exists r. split; [exact I|]. apply port_text_says; [apply P, I..|exact H].
  - intros [->|(r & I & H)]; [exists None; split; [left; reflexivity|exact Logic.I]|].
    exists (Some (port_text r)). split; [apply blank_in; right; exists (port_text r); split; [reflexivity|apply in_map, I]|].
    apply port_text_says; [apply P, I..|exact H].
Qed.
Definition wide (t : term) : list (Z * Z) :=
  if (str_in "udp" (map ms_word (t_protocol t)) || str_in "tcp" (map ms_word (t_protocol t))) && negb (some (t_source_port t)) && negb (some (t_destination_port t))
  then [(1, 65535)] else t_destination_port t.
Lemma word_icmp4 q : In q (map fst proto_map) -> String.eqb (ms_word q) "icmp" = String.eqb q "icmp".
Proof. revert q. apply (known_ind (fun q => String.eqb (ms_word q) "icmp" = String.eqb q "icmp")). repeat constructor. Qed.
(** The types of a term and their numbers. *)
Definition types_as (t : term) (types : list Z) : Prop :=
  exists q table nums, t_protocol t = [q] /\ (q = "icmp" /\ table = icmp_type4 \/ q = "icmpv6" /\ table = icmp_type6) /\
    t_icmp_type t <> [] /\ Forall2 (fun x k => In (x, k) table) (t_icmp_type t) nums /\ Permutation.Permutation types nums.
Lemma app_of_ok t a : ms_term_ok t -> ms_app_of t = Ok a -> exists types,
  a = {| ms_sport := map port_text (t_source_port t); ms_dport := map port_text (wide t); ms_protocol := map w6 (t_protocol t); ms_types := types; ms_codes := [] |} /\
  (t_icmp_type t = [] /\ types = [] \/ types_as t types).
Proof.
  intros O H. unfold ms_app_of in H. destruct (juniper_init _); cbn [bind] in H; [|discriminate].
  destruct (normalize_icmp_types (t_icmp_type t) (map ms_word (t_protocol t)) (ms_af (map ms_word (t_protocol t)))) as [o|e] eqn:E; cbn [bind] in H; [|discriminate].
  rewrite icmp6_map in H by apply O. rewrite (mo_codes _ O) in H. injection H as <-. eexists. split; [reflexivity|]. destruct o as [l|].
  - right. apply normalize_icmp_ok in E. destruct E as (Ne & _ & n & table & nums & Fam & _ & F2 & P).
    assert (X : exists q, t_protocol t = [q] /\ (q = "icmp" /\ table = icmp_type4 \/ q = "icmpv6" /\ table = icmp_type6)).
    { pose proof (mo_known _ O) as K. destruct (t_protocol t) as [|q [|q' r]]; [destruct Fam as [(X & _)|(X & _)]; discriminate X| |destruct Fam as [(X & _)|(X & _)]; discriminate X].
      exists q. split; [reflexivity|]. specialize (K q (or_introl eq_refl)). destruct Fam as [(X & _ & ->)|(X & _ & ->)]; cbn [map] in X; injection X as X; [left|right]; (split; [|reflexivity]); apply String.eqb_eq.
      - rewrite <- (word_icmp4 q K). apply String.eqb_eq, X.
      - rewrite <- (word_icmp6 q K). apply String.eqb_eq, X. }
    destruct X as (q & X & Y). exists q, table, nums. auto.
  - left. apply normalize_icmp_none in E. auto.
Qed.
Lemma wide_ok t : ms_term_ok t -> forall r, In r (wide t) -> 0 <= fst r /\ 0 <= snd r.
Proof. intros O. unfold wide. destruct (_ && _ && _); [intros r [<-|[]]; cbn; lia|apply O]. Qed.
Lemma table_ge q table : (q = "icmp" /\ table = icmp_type4 \/ q = "icmpv6" /\ table = icmp_type6) -> forall x n, In (x, n) table -> 0 <= n.
Proof.
  intros T x n I. assert (F : forallb (fun kv => 0 <=? snd kv) table = true) by (destruct T as [(_ & ->)|(_ & ->)]; reflexivity).
  rewrite forallb_forall in F. specialize (F _ I). cbn [snd] in F. lia.
Qed.
Lemma table_once q table : (q = "icmp" /\ table = icmp_type4 \/ q = "icmpv6" /\ table = icmp_type6) -> forall x y n, In (x, n) table -> In (y, n) table -> x = y.
Proof.
  intros T x y n I J. assert (N : NoDup (map snd table)).
  { destruct T as [(_ & ->)|(_ & ->)]; cbn [map snd icmp_type4 icmp_type6]; repeat (constructor; [cbn [In]; intuition discriminate|]); constructor. }
  clear T. induction table as [|(z, m) table IH]; [destruct I|]. cbn [map snd] in N. inversion N as [|? ? X N']; subst.
  destruct I as [I|I], J as [J|J]; [congruence| | |exact (IH I J N')].
  - injection I as -> ->. destruct X. apply in_map_iff. exists (y, n). auto.
  - injection J as -> ->. destruct X. apply in_map_iff. exists (x, n). auto.
Qed.
Lemma forall2_left {A B} (R : A -> B -> Prop) l m : Forall2 R l m -> forall x, In x l -> exists y, In y m /\ R x y.
Proof. induction 1 as [|a b l m H F IH]; intros x []; [subst; exists b; split; [left; reflexivity|exact H]|]. destruct (IH x H0) as (y & I & Y). exists y. split; [right; exact I|exact Y]. Qed.
Lemma forall2_right {A B} (R : A -> B -> Prop) l m : Forall2 R l m -> forall y, In y m -> exists x, In x l /\ R x y.
Proof. induction 1 as [|a b l m H F IH]; intros y []; [subst; exists a; split; [left; reflexivity|exact H]|]. destruct (IH y H0) as (x & I & X). exists x. split; [right; exact I|exact X]. Qed.
Lemma types_ge t types : types_as t types -> forall n, In n types -> 0 <= n.
Proof.
  intros (q & table & nums & _ & T & _ & F & P) n I. apply (Permutation.Permutation_in _ P) in I. destruct (forall2_right _ _ _ F n I) as (x & _ & X). exact (table_ge q table T x n X).
Qed.
Lemma app_of_fine t a : ms_term_ok t -> ms_app_of t = Ok a -> app_fine a.
Proof.
  intros O H. destruct (app_of_ok t a O H) as (types & -> & T). constructor; cbn; [|reflexivity| | |apply ports_plain; exact (mo_sport _ O)|apply ports_plain; exact (wide_ok _ O)].
  - destruct T as [(_ & ->)|T]; [intros n []|exact (types_ge t types T)].
  - pose proof (mo_some _ O). destruct (t_protocol t); [congruence|discriminate].
  - intros w I. apply in_map_iff in I. destruct I as (q & <- & I). apply w6_plain, (mo_known _ O), I.
Qed.
Lemma wide_match t p : ms_term_ok t -> real_ports p -> In (p_proto p) (t_protocol t) -> tcp_udp (p_proto p) = true ->
  ports_match (wide t) (p_dport p) <-> ports_match (t_destination_port t) (p_dport p).
Proof.
  intros O R I T. unfold wide. destruct (_ && _ && _) eqn:E; [|reflexivity]. rewrite !andb_true_iff in E. destruct E as (_ & E).
  destruct (t_destination_port t); [|discriminate E]. split; [left; reflexivity|]. intros _. right. exists (1, 65535). split; [left; reflexivity|].
  unfold SpecPorts.in_range. cbn [fst snd]. apply R. unfold tcp_udp in T. rewrite orb_true_iff, !String.eqb_eq in T. tauto.
Qed.
Lemma blank_some {A} (l : list A) : exists o, In o (or_blank l).
Proof. destruct l as [|x l]; [exists None|exists (Some x)]; left; reflexivity. Qed.
Lemma ports_says t p types codes : ms_term_ok t -> real_ports p ->
  (exists c, In c (combos3 {| ms_sport := map port_text (t_source_port t); ms_dport := map port_text (wide t); ms_protocol := map w6 (t_protocol t); ms_types := types; ms_codes := codes |}) /\
     forall s, In s (ms_body c) -> ms_holds p s) <->
  In (p_proto p) (t_protocol t) /\ ports_match (t_source_port t) (p_sport p) /\ ports_match (t_destination_port t) (p_dport p).
Proof.
  intros O R. pose proof (ports_plain _ (mo_sport _ O)) as PS. pose proof (ports_plain _ (wide_ok _ O)) as PD.
  assert (PB : forall l, plain_words l -> forall o, In o (or_blank l) -> forall w, o = Some w -> plain_word w).
  { intros l W o I w ->. apply blank_in in I. destruct I as [(_ & X)|(x & X & J)]; [discriminate|]. injection X as ->. apply W, J. }
  split.
  - intros (((q, s), d) & I & B). apply combos3_in in I. cbn [ms_protocol ms_sport ms_dport] in I. destruct I as (Q & S & D).
    apply blank_in in Q. destruct Q as [(X & _)|(w & -> & Q)]; [apply map_nil in X; destruct (mo_some _ O X)|]. apply in_map_iff in Q. destruct Q as (q & <- & Q).
    pose proof (mo_known _ O q Q) as K. rewrite body_says in B; [|apply w6_plain, K|apply (w6_device q K (mo_all _ O q Q))|exact (PB _ PS s S)|exact (PB _ PD d D)]. rewrite (w6_ported q K), (w6_says q p K (mo_all _ O q Q)) in B. destruct B as (<- & B).
    split; [exact Q|]. destruct (tcp_udp (p_proto p)) eqn:T.
    + destruct (B eq_refl) as (B1 & B2). split; [apply blank_ports; [exact (mo_sport _ O)|exists s; auto]|].
      apply (wide_match t p O R Q T). apply blank_ports; [exact (wide_ok _ O)|exists d; auto].
    + destruct (mo_ports _ O) as (-> & ->); [|split; left; reflexivity]. exists (p_proto p). split; [exact Q|].
      unfold tcp_udp in T. rewrite orb_false_iff, !String.eqb_neq in T. tauto.
  - intros (Q & S & D). pose proof (mo_known _ O _ Q) as K. destruct (tcp_udp (p_proto p)) eqn:T.
    + apply (wide_match t p O R Q T) in D. apply blank_ports in S; [|exact (mo_sport _ O)]. apply blank_ports in D; [|exact (wide_ok _ O)].
      destruct S as (s & S1 & S2). destruct D as (d & D1 & D2). exists (Some (w6 (p_proto p)), s, d). split.
      * apply combos3_in. cbn [ms_protocol ms_sport ms_dport]. split; [apply blank_in; right; eexists; split; [reflexivity|apply in_map, Q]|auto].
      * rewrite body_says; [|apply w6_plain, K|apply (w6_device _ K (mo_all _ O _ Q))|exact (PB _ PS s S1)|exact (PB _ PD d D1)]. rewrite (w6_says _ p K (mo_all _ O _ Q)). auto.
    + destruct (blank_some (map port_text (t_source_port t))) as (s & S1). destruct (blank_some (map port_text (wide t))) as (d & D1).
      exists (Some (w6 (p_proto p)), s, d). split.
      * apply combos3_in. cbn [ms_protocol ms_sport ms_dport]. split; [apply blank_in; right; eexists; split; [reflexivity|apply in_map, Q]|auto].
      * rewrite body_says; [|apply w6_plain, K|apply (w6_device _ K (mo_all _ O _ Q))|exact (PB _ PS s S1)|exact (PB _ PD d D1)]. rewrite (w6_says _ p K (mo_all _ O _ Q)), (w6_ported _ K), T. split; [reflexivity|discriminate].
Qed.

(** The ICMP types of a part. *)
Lemma type_leaf q table p n : (q = "icmp" /\ table = icmp_type4 \/ q = "icmpv6" /\ table = icmp_type6) -> 0 <= n ->
  (forall s, In s (icmp_body (w6 q) n) -> ms_holds p s) <-> p_proto p = q /\ In (p_icmp_type p, n) table.
Proof.
  intros T G. pose proof (dec_value n G) as V. pose proof (dec_plain n G) as D. destruct T as [(-> & ->)|(-> & ->)].
  - change (icmp_body (w6 "icmp") n) with [Leaf ["application-protocol"; "icmp"]; Leaf ["protocol"; "icmp"]; Leaf ["icmp-type"; dec n]; Leaf ["inactivity-timeout"; "60"]].
    assert (E : ms_holds p (Leaf ["icmp-type"; dec n]) <-> In (p_icmp_type p, n) icmp_type4).
    { change (one_of (fun w => exists n, numeral_value w = Some n /\ In (p_icmp_type p, n) (icmp_types_of V4)) (gw [dec n]) <-> In (p_icmp_type p, n) icmp_type4).
      rewrite one_of_gw by (apply plain_cons; [exact D|apply plain_nil]). split; [intros (x & [<-|[]] & m & M & X); rewrite V in M; injection M as <-; exact X|].
      intros X. exists (dec n). split; [left; reflexivity|exists n; auto]. }
    assert (Q : ms_holds p (Leaf ["protocol"; "icmp"]) <-> p_proto p = "icmp") by (rewrite protocol_leaf; [reflexivity|apply plain_lit; reflexivity|right; cbn; tauto]).
    split; [intros H; split; [apply Q, H|apply E, H]; cbn [In]; auto|]. intros (A & B) s [<-|[<-|[<-|[<-|[]]]]]; [exact I|apply Q, A|apply E, B|exact I].
  - change (icmp_body (w6 "icmpv6") n) with [Leaf ["protocol"; "icmp6"]; Leaf ["icmp6-type"; dec n]; Leaf ["inactivity-timeout"; "60"]].
    assert (E : ms_holds p (Leaf ["icmp6-type"; dec n]) <-> In (p_icmp_type p, n) icmp_type6).
    { change ((exists m, numeral_value (dec n) = Some m /\ In (p_icmp_type p, m) icmp_type6) <-> In (p_icmp_type p, n) icmp_type6). rewrite V.
      split; [intros (m & M & X); injection M as <-; exact X|intros X; exists n; auto]. }
    assert (Q : ms_holds p (Leaf ["protocol"; "icmp6"]) <-> p_proto p = "icmpv6") by (rewrite protocol_leaf; [reflexivity|apply plain_lit; reflexivity|right; cbn; tauto]).
    split; [intros H; split; [apply Q, H|apply E, H]; cbn [In]; auto|]. intros (A & B) s [<-|[<-|[<-|[]]]]; [apply Q, A|apply E, B|exact I].
Qed.
Lemma app_says t a p : ms_term_ok t -> ms_app_of t = Ok a -> real_ports p ->
  (exists c, In c (pairs a) /\ forall s, In s (snd c) -> ms_holds p s) <-> of_term t p.
Proof.
  intros O H R. destruct (app_of_ok t a O H) as (types & -> & T). unfold of_term, pairs. cbn [ms_types ms_protocol]. destruct T as [(E & ->)|T].
  - cbn [some]. rewrite E. split.
    + intros (x & I & X). apply in_map_iff in I. destruct I as (c & <- & I). cbn [snd] in X.
      destruct (proj1 (ports_says t p [] [] O R)) as (A & B & C); [exists c; auto|]. auto.
    + intros (A & B & C & _). destruct (proj2 (ports_says t p [] [] O R)) as (c & I & X); [auto|]. exists (chunk3 c, ms_body c). split; [apply in_map_iff; exists c; auto|exact X].
  - pose proof (types_ge t types T) as G. destruct T as (q & table & nums & Q & T & Ne & F & P).
    assert (Po : t_source_port t = [] /\ t_destination_port t = []).
    { apply (mo_ports _ O). exists q. rewrite Q. split; [left; reflexivity|]. destruct T as [(-> & _)|(-> & _)]; split; discriminate. }
    destruct Po as (-> & ->). rewrite Q.
    assert (S : some types = true).
    { destruct types; [|reflexivity]. apply Permutation.Permutation_nil in P. subst nums. inversion F. congruence. }
    rewrite S. cbn [map]. split.
    + intros (x & I & X). apply in_flat_map in I. destruct I as (n & N & [<-|[]]). cbn [snd] in X. apply (type_leaf q table p n T (G n N)) in X. destruct X as (X & Y).
      split; [left; auto|]. split; [left; reflexivity|]. split; [left; reflexivity|]. right.
      apply (Permutation.Permutation_in _ P) in N. destruct (forall2_right _ _ _ F n N) as (y & J & Z). rewrite (table_once q table T _ _ n Y Z). exact J.
    + intros ([A|[]] & _ & _ & [B|B]); [congruence|]. destruct (forall2_left _ _ _ F _ B) as (n & N & X).
      apply (Permutation.Permutation_in _ (Permutation.Permutation_sym P)) in N. exists (icmp_lines (w6 q) n, icmp_body (w6 q) n). split.
      * apply in_flat_map. exists n. split; [exact N|left; reflexivity].
      * cbn [snd]. apply (type_leaf q table p n T (G n N)). auto.
Qed.

(** ** The whole *)
Lemma nodup_filter {A B} (f : A -> B) (g : A -> bool) l : NoDup (map f l) -> NoDup (map f (filter g l)).
Proof.
  induction l as [|x l IH]; intros N; [constructor|]. cbn [map] in N. inversion N as [|? ? X N']; subst. cbn [filter]. destruct (g x); [|apply IH, N'].
  cbn [map]. constructor; [|apply IH, N']. intros I. apply X. apply in_map_iff in I. destruct I as (y & <- & I). apply filter_In in I. apply in_map, I.
Qed.
Lemma any_app t a : ms_any t -> ms_app_of t = Ok a -> ms_content a = false.
Proof.
  intros (A & B & C & D & _) H. unfold ms_app_of in H. rewrite A, B, C, D in H. cbn [map] in H. destruct (juniper_init []); cbn [bind] in H; [|discriminate].
  cbn [normalize_icmp_types some negb bind] in H. injection H as <-. reflexivity.
Qed.
Lemma ms_whole today f terms apps used : plain_word f -> (forall t, In t terms -> rendered today t = true -> ms_term_ok t \/ ms_any t) ->
  ms_terms today f [] [] terms = Ok (apps, used) ->
  map fst used = filter (rendered today) terms /\
  exists conf, statements (ms_applications apps) = Some conf /\
    forall t n p, In (t, n) used -> ms_term_ok t -> real_ports p -> (set_matches conf (n ++ "-app")%string p <-> of_term t p).
Proof.
  intros P O H. destruct (ms_terms_spec _ _ _ _ _ _ _ H) as (N & _ & E & A & B); [constructor|]. split; [exact E|].
  assert (O' : forall t, In t (map fst used) -> ms_term_ok t \/ ms_any t) by (intros t I; rewrite E in I; apply filter_In in I; apply O; apply I).
  assert (B' : forall n a, In (n, a) apps -> ms_content a = true -> plain_word n /\ app_fine a).
  { intros n a I C. destruct (B n a I) as [[]|(t & J & X & ->)]. destruct (O' t J) as [Ot|Ot]; [|rewrite (any_app t a Ot X) in C; discriminate C].
    split; [apply ms_name_plain; [exact P|apply (mo_name _ Ot)]|exact (app_of_fine t a Ot X)]. }
  unfold ms_applications. set (l := filter (fun na => ms_content (snd na)) (py_sorted (fun x y => str_leb (fst x) (fst y)) apps)).
  assert (L : forall na, In na l <-> In na apps /\ ms_content (snd na) = true) by (intros na; unfold l; rewrite filter_In, py_sorted_in; reflexivity).
  assert (NL : NoDup (map fst l)).
  { apply nodup_filter. apply (Permutation.Permutation_NoDup (Permutation.Permutation_map fst (Permutation.Permutation_sym (py_sorted_perm _ apps)))), N. }
  exists (match l with [] => [] | _ => [Block ["applications"] (conf_defs l)] end). split.
  - destruct l as [|na l'] eqn:El; [reflexivity|]. rewrite <- El in *. replace (some l) with true by (rewrite El; reflexivity).
    apply conf_read; [rewrite El; discriminate|]. intros (n, a) I. apply L in I. apply B'; apply I.
  - intros t n p I Ot R. destruct (A t n I) as (a & X & J).
    assert (C : ms_content a = true). { pose proof (af_some _ (app_of_fine t a Ot X)). unfold ms_content. destruct (ms_protocol a); [congruence|reflexivity]. }
    assert (J' : In (n, a) l) by (apply L; auto). destruct l as [|na l'] eqn:El; [destruct J'|]. rewrite <- El in *.
    change (n ++ "-app")%string with (set_name n). rewrite (set_meaning l n a p NL J'). apply app_says; assumption.
Qed.

(** ** Accepted filters *)
Lemma find_fresh n a l : ~ In n (map fst l) -> exists o, ms_find n a l = Ok o.
Proof.
  induction l as [|(m, b) l IH]; intros H; cbn [ms_find]; [eauto|]. cbn [map fst In] in H. destruct (ms_same a b); [eauto|].
  destruct (String.eqb n m) eqn:E; [apply String.eqb_eq in E; subst; destruct H; auto|]. apply IH. intros X. apply H. right. exact X.
Qed.
Lemma init_known ps : (forall q, In q ps -> In q (map fst proto_map)) -> exists r, juniper_init (map PName ps) = Ok r.
Proof.
  intros K. unfold juniper_init. rewrite (proj2 (forallb_forall _ (map PName ps))); [eauto|]. intros x I. apply in_map_iff in I. destruct I as (q & <- & I).
  destruct (assoc q proto_map) eqn:A; [reflexivity|]. exfalso. specialize (K q I). revert A.
  revert q K I. apply (known_ind (fun q => In q ps -> assoc q proto_map = None -> False)). repeat (apply Forall_cons; [intros _; vm_compute; discriminate|]). apply Forall_nil.
Qed.
Lemma ms_accepts today f terms : forall seen apps, (forall t, In t terms -> rendered today t = true -> ms_term_ok t /\ t_icmp_type t = []) ->
  NoDup (map (fun t => ms_name f (t_name t)) terms) -> (forall t, In t terms -> ~ In (t_name t) seen /\ ~ In (ms_name f (t_name t)) (map fst apps)) ->
  exists r, ms_terms today f seen apps terms = Ok r.
Proof.
  induction terms as [|t terms IH]; intros seen apps O N S; cbn [ms_terms]; [eauto|]. cbn [map] in N. inversion N as [|? ? X N']; subst.
  assert (O' : forall t, In t terms -> rendered today t = true -> ms_term_ok t /\ t_icmp_type t = []) by (intros; apply O; [right|]; assumption).
  assert (S' : forall x, In x terms -> t_name x <> t_name t /\ ms_name f (t_name x) <> ms_name f (t_name t)).
  { intros x I. assert (Y : ms_name f (t_name x) <> ms_name f (t_name t)).
    { intros E. apply X. apply in_map_iff. exists x. auto. } split; [intros E; apply Y; rewrite E; reflexivity|exact Y]. }
  assert (T : forall seen', (seen' = seen \/ seen' = t_name t :: seen) -> forall apps', (apps' = apps \/ exists a, apps' = apps ++ [(ms_name f (t_name t), a)]) ->
    exists r, ms_terms today f seen' apps' terms = Ok r).
  { intros seen' E apps' A. apply IH; [exact O'|exact N'|]. intros x I. destruct (S x (or_intror I)) as (S1 & S2). destruct (S' x I) as (S3 & S4). split.
    - destruct E as [->| ->]; [exact S1|]. intros [Y|Y]; [congruence|exact (S1 Y)].
    - destruct A as [->|(a & ->)]; [exact S2|]. rewrite map_app, in_app_iff. cbn [map fst In]. intros [Y|[Y|[]]]; [exact (S2 Y)|congruence]. }
  destruct (t_stateless_reply t) eqn:E1; [apply T; auto|]. destruct (str_in "established" (t_option t) || str_in "tcp-established" (t_option t)) eqn:E2; [apply T; auto|].
  destruct (S t (or_introl eq_refl)) as (S1 & S2). rewrite <- str_in_spec in S1. destruct (str_in (t_name t) seen); [destruct S1; reflexivity|].
  destruct (expired today t) eqn:E3; [apply T; auto|]. assert (Ot2 : ms_term_ok t /\ t_icmp_type t = []) by (apply O; [left; reflexivity|unfold rendered; rewrite E1, E2, E3; reflexivity]). destruct Ot2 as (Ot & Ty).
  unfold ms_app_of. destruct (init_known _ (mo_known _ Ot)) as (r & ->). cbn [bind]. rewrite Ty. cbn [normalize_icmp_types some negb bind].
  match goal with |- context [ms_find ?n ?a apps] => destruct (find_fresh n a apps S2) as (o & F); rewrite F; destruct o as [m|] end; cbn [bind].
  - destruct (T (t_name t :: seen) (or_intror eq_refl) apps (or_introl eq_refl)) as (r' & ->). cbn [bind]. eauto.
  - match goal with |- context [apps ++ [(_, ?a)]] => destruct (T (t_name t :: seen) (or_intror eq_refl) _ (or_intror (ex_intro _ a eq_refl))) as (r' & ->) end. cbn [bind]. eauto.
Qed.
