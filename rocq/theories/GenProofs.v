(** Proofs about the shared generator code. *)
From Coq Require Import Lia ZifyBool ZifyNat Sorted Permutation.
From Verif Require Import SpecGen BaseFacts PyStrFacts PortProofs.
Local Open Scope string_scope.
Local Open Scope list_scope.
Local Open Scope Z_scope.

(** ** Strings *)

Lemma slen_nonneg s : 0 <= slen s.
Proof. unfold slen. lia. Qed.
Lemma length_app a b : String.length (a ++ b)%string = (String.length a + String.length b)%nat.
Proof. induction a as [|c a IH]; simpl; [reflexivity|]. rewrite IH. reflexivity. Qed.
Lemma substring_prefix n : forall s, exists q, s = (substring 0 n s ++ q)%string.
Proof.
  induction n as [|n IH]; intros [|c s]; simpl; try (eexists; reflexivity).
  destruct (IH s) as (q & E). exists q. rewrite <- E. reflexivity.
Qed.
Lemma substring_length n : forall s, (String.length (substring 0 n s) <= n)%nat.
Proof. induction n as [|n IH]; intros [|c s]; simpl; try lia. specialize (IH s). lia. Qed.
Lemma substring_all n : forall s, (String.length s <= n)%nat -> substring 0 n s = s.
Proof.
  induction n as [|n IH]; intros [|c s] L; simpl in *; try reflexivity; try lia.
  rewrite IH by lia. reflexivity.
Qed.
Lemma substring_exact n : forall s, (n <= String.length s)%nat -> String.length (substring 0 n s) = n.
Proof. induction n as [|n IH]; intros [|c s] L; simpl in *; try lia. rewrite IH by lia. reflexivity. Qed.
Lemma slice_to_length s n : 0 <= n -> slen (slice_to s n) <= n.
Proof.
  intros H. unfold slice_to, slen. destruct (n <? 0) eqn:E; [lia|].
  pose proof (substring_length (Z.to_nat n) s). lia.
Qed.
Lemma slice_to_prefix s n : exists q, s = (slice_to s n ++ q)%string.
Proof. unfold slice_to. destruct (n <? 0); apply substring_prefix. Qed.
Lemma slice_to_all s n : slen s <= n -> slice_to s n = s.
Proof.
  unfold slice_to, slen. intros H. destruct (n <? 0) eqn:E; [lia|]. apply substring_all. lia.
Qed.

Lemma sub_skip w b x : forall s, sub_aux w b (x ++ s)%string (String.length x) = sub_aux w b s 0.
Proof. induction x as [|c x IH]; intros s; simpl; auto. Qed.

Lemma substituted_cons w b c s x : w <> "" -> String.prefix w (String c s) = false ->
  substituted w b s x -> substituted w b (String c s) (String c x).
Proof.
  intros W P H.
  assert (NP : forall r, String c s <> (w ++ r)%string).
  { intros r E. assert (String.prefix w (String c s) = true) by (apply prefix_app; exists r; exact E). congruence. }
  destruct H as [s H|p r r' F H].
  - apply sub_none. intros ([|d p] & q & E).
    + apply (NP q). exact E.
    + simpl in E. injection E as -> E. apply H. exists p, q. exact E.
  - change (String c (p ++ w ++ r)%string) with (String c p ++ w ++ r)%string.
    change (String c (p ++ b ++ r')%string) with (String c p ++ b ++ r')%string.
    apply sub_first; [|exact H]. intros [|d p'] q E.
    + exfalso. apply (NP q). exact E.
    + simpl in E. injection E as _ E. apply F in E. simpl. lia.
Qed.

Lemma re_sub_spec w b s : w <> "" -> substituted w b s (re_sub w b s).
Proof.
  intros W. unfold re_sub. remember (String.length s) as n eqn:Hn. assert (L : (String.length s <= n)%nat) by lia.
  clear Hn. revert s L. induction n as [|n IH]; intros [|c s] L; cbn [sub_aux].
  1,3: apply sub_none; intros (p & q & E); destruct p; simpl in E; [destruct w; [congruence|discriminate]|discriminate].
  { simpl in L. lia. }
  destruct (String.prefix w (String c s)) eqn:P.
  - apply prefix_app in P. destruct P as (r & E). destruct w as [|d w]; [congruence|].
    simpl in E. injection E as <- E. rewrite E. cbn [String.length].
    replace (S (String.length w) - 1)%nat with (String.length w) by lia.
    rewrite sub_skip.
    change (substituted (String c w) b ("" ++ String c w ++ r)%string ("" ++ b ++ sub_aux (String c w) b r 0)%string).
    apply sub_first.
    + intros p' r' _. simpl. lia.
    + apply IH. rewrite E in L. cbn [String.length] in L. rewrite length_app in L. lia.
  - apply substituted_cons; auto. apply IH. simpl in L. lia.
Qed.

(** ** Term names *)


Lemma app_inv_length a : forall b x y, String.length a = String.length b ->
  (a ++ x)%string = (b ++ y)%string -> a = b /\ x = y.
Proof.
  induction a as [|c a IH]; intros [|d b] x y L E; simpl in *; try lia; auto.
  injection E as -> E. destruct (IH b x y ltac:(lia) E) as (-> & ->). auto.
Qed.
Lemma substituted_fun w b s x : substituted w b s x -> forall y, substituted w b s y -> x = y.
Proof.
  induction 1 as [s H|p r r' F H IH]; intros y G; inversion G as [s' H'|p' q q' F' H' E]; subst.
  - reflexivity.
  - exfalso. apply H. exists p', q. reflexivity.
  - exfalso. apply H'. exists p, r. reflexivity.
  - assert (L : String.length p = String.length p').
    { symmetry in E. pose proof (F _ _ E). symmetry in E. pose proof (F' _ _ E). lia. }
    symmetry in L. apply app_inv_length in E; [|exact L]. destruct E as (-> & E).
    apply app_inv_length in E; [|reflexivity]. destruct E as (_ & ->). rewrite (IH _ H'). reflexivity.
Qed.
Lemma abbreviated_fun l s x : abbreviated l s x -> forall y, abbreviated l s y -> x = y.
Proof.
  induction 1 as [s|w b l s s1 s2 A B IH]; intros y G; inversion G as [|? ? ? ? s1' ? A' B']; subst; auto.
  rewrite (substituted_fun _ _ _ _ A' _ A) in B'. auto.
Qed.

Lemma abbreviate_loop_spec limit : forall table name done n,
  Forall (fun e => fst e <> "") table ->
  abbreviate_loop table limit name = (done, n) ->
  exists k, (k <= List.length table)%nat /\ abbreviated (firstn k table) name n /\
    (done = true -> slen n <= limit) /\
    (done = false -> k = List.length table) /\
    forall j m, (j < k)%nat -> abbreviated (firstn j table) name m -> limit < slen m.
Proof.
  induction table as [|[w b] table IH]; intros name done n F H; cbn [abbreviate_loop] in H.
  - injection H as <- <-. exists O. split; [simpl; lia|]. split; [constructor|].
    split; [discriminate|]. split; [reflexivity|]. intros; lia.
  - destruct (slen name <=? limit) eqn:E.
    + injection H as <- <-. exists O. split; [simpl; lia|]. split; [constructor|].
      split; [lia|]. split; [discriminate|]. intros; lia.
    + inversion F as [|? ? F1 F2]; subst. apply IH in H; [|exact F2]. destruct H as (k & K & A & D & N & X).
      exists (S k). cbn [firstn List.length]. split; [lia|]. split.
      { apply abb_cons with (re_sub w b name); [apply re_sub_spec; exact F1|exact A]. }
      split; [exact D|]. split; [intros H; rewrite (N H); reflexivity|].
      intros [|j] m Hj B; cbn [firstn] in B; inversion B as [|? ? ? ? s1 ? S1 S2]; subst.
      * lia.
      * rewrite (substituted_fun _ _ _ _ S1 _ (re_sub_spec w b name F1)) in S2. apply (X j m); [lia|exact S2].
Qed.

Lemma fix_term_length_fits table name ab tr limit s :
  fix_term_length table name ab tr limit = Ok s -> slen s <= limit.
Proof.
  unfold fix_term_length.
  destruct (if ab then abbreviate_loop table limit name else (false, name)) as (done, n) eqn:E.
  destruct done.
  - intros H. injection H as <-. destruct ab; [|discriminate].
    revert name E. induction table as [|[w b] table IH]; intros name E; cbn [abbreviate_loop] in E; [discriminate|].
    destruct (slen name <=? limit) eqn:L; [injection E as <-; lia|eauto].
  - destruct (slen (if tr then slice_to n limit else n) <=? limit) eqn:L; intros H; [|discriminate].
    injection H as <-. lia.
Qed.
Lemma fix_term_length_short table name ab tr limit :
  slen name <= limit -> fix_term_length table name ab tr limit = Ok name.
Proof.
  intros H. unfold fix_term_length.
  assert (R : forall d, (if d : bool then Ok name else
            if slen (if tr then slice_to name limit else name) <=? limit
            then Ok (if tr then slice_to name limit else name) else Raise (Exn "TermNameTooLongError")) = Ok name).
  { intros []; [reflexivity|]. destruct tr; [rewrite slice_to_all by exact H|];
      destruct (slen name <=? limit) eqn:E; (reflexivity || lia). }
  destruct ab; [|apply (R false)].
  destruct table as [|[w b] table]; cbn [abbreviate_loop]; [apply (R false)|].
  destruct (slen name <=? limit) eqn:E; [reflexivity|lia].
Qed.
Lemma fix_term_length_truncates table name ab limit :
  0 <= limit -> exists s, fix_term_length table name ab true limit = Ok s.
Proof.
  intros H. unfold fix_term_length.
  destruct (if ab then abbreviate_loop table limit name else (false, name)) as ([], n); [eauto|].
  pose proof (slice_to_length n limit H). destruct (slen (slice_to n limit) <=? limit) eqn:E; [eauto|lia].
Qed.
Lemma fix_term_length_error table name ab tr limit e :
  fix_term_length table name ab tr limit = Raise e ->
  e = Exn "TermNameTooLongError" /\ limit < slen name /\ (tr = false \/ limit < 0).
Proof.
  intros H. split; [|split].
  - unfold fix_term_length in H.
    destruct (if ab then abbreviate_loop table limit name else (false, name)) as ([], n); [discriminate|].
    destruct (_ <=? _); congruence.
  - destruct (Z.le_gt_cases (slen name) limit) as [L|L]; [|lia].
    rewrite fix_term_length_short in H by exact L. discriminate.
  - destruct tr; auto. right. destruct (Z.le_gt_cases 0 limit) as [L|L]; [|lia].
    destruct (fix_term_length_truncates table name ab limit L) as (s & E). congruence.
Qed.
Lemma fix_term_length_truncation table name tr limit s :
  fix_term_length table name false tr limit = Ok s -> (tr = false /\ s = name) \/
  (tr = true /\ exists q, name = (s ++ q)%string /\ (q <> "" -> slen s = limit)).
Proof.
  unfold fix_term_length. intros H. destruct tr.
  - right. split; [reflexivity|]. destruct (slen (slice_to name limit) <=? limit) eqn:E; [|discriminate].
    injection H as <-. destruct (slice_to_prefix name limit) as (q & Q). exists q. split; [exact Q|].
    intros NQ. destruct (Z.le_gt_cases (slen name) limit) as [L|L].
    { exfalso. rewrite slice_to_all in Q by exact L. apply (f_equal String.length) in Q. rewrite length_app in Q.
      destruct q; [congruence|simpl in Q; lia]. }
    assert (0 <= limit) by (pose proof (slen_nonneg (slice_to name limit)); lia).
    unfold slice_to, slen in *. destruct (limit <? 0) eqn:E0; [lia|].
    rewrite substring_exact by lia. lia.
  - left. destruct (slen name <=? limit); [|discriminate]. injection H as <-. auto.
Qed.
Lemma fix_term_length_abbreviates table name limit s :
  Forall (fun e => fst e <> "") table ->
  fix_term_length table name true false limit = Ok s ->
  exists k, abbreviated (firstn k table) name s /\
    forall j m, (j < k)%nat -> abbreviated (firstn j table) name m -> limit < slen m.
Proof.
  unfold fix_term_length. intros F H. destruct (abbreviate_loop table limit name) as (done, n) eqn:E.
  apply abbreviate_loop_spec in E; [|exact F]. destruct E as (k & K & A & D & N & X).
  exists k. assert (s = n) as ->; [|auto].
  destruct done; [congruence|]. destruct (slen n <=? limit); congruence.
Qed.
Lemma fix_term_length_abbreviates_enough table name limit k m :
  Forall (fun e => fst e <> "") table ->
  abbreviated (firstn k table) name m -> slen m <= limit ->
  exists s, fix_term_length table name true false limit = Ok s.
Proof.
  intros F A L. destruct (fix_term_length table name true false limit) as [s|e] eqn:H; [eauto|exfalso].
  unfold fix_term_length in H. destruct (abbreviate_loop table limit name) as (done, n) eqn:E.
  apply abbreviate_loop_spec in E; [|exact F]. destruct E as (j & J & B & D & N & X).
  destruct done; [discriminate|]. destruct (slen n <=? limit) eqn:G; [discriminate|]. clear H.
  specialize (N eq_refl). subst j.
  destruct (Nat.lt_ge_cases k (List.length table)) as [K|K].
  - specialize (X k m K A). lia.
  - rewrite firstn_all2 in A by exact K. rewrite firstn_all in B.
    rewrite (abbreviated_fun _ _ _ B _ A) in G. lia.
Qed.

(** ** ICMP types *)

Lemma assoc_in {A} k (v : A) l : assoc k l = Some v -> In (k, v) l.
Proof.
  induction l as [|[k' v'] l IH]; simpl; [discriminate|].
  destruct (String.eqb_spec k k') as [->|N]; intros H; [left; congruence|right; auto].
Qed.
Lemma in_assoc {A} k (v : A) l : NoDup (map fst l) -> In (k, v) l -> assoc k l = Some v.
Proof.
  induction l as [|[k' v'] l IH]; simpl; intros N H; [contradiction|]. inversion N as [|? ? N1 N2]; subst.
  destruct H as [H|H].
  - injection H as -> ->. rewrite String.eqb_refl. reflexivity.
  - destruct (String.eqb_spec k k') as [->|NE]; [|auto].
    exfalso. apply N1. apply in_map_iff. exists (k', v). auto.
Qed.
Lemma assoc_none {A} k (l : list (string * A)) : assoc k l = None <-> ~ In k (map fst l).
Proof.
  induction l as [|[k' v'] l IH]; simpl; [tauto|].
  destruct (String.eqb_spec k k') as [->|N]; [split; [discriminate|tauto]|].
  rewrite IH. split; [intros H [E|E]; [congruence|tauto]|tauto].
Qed.
Lemma nodup_table (l : list string) : (if list_eq_dec string_dec (nodup string_dec l) l then true else false) = true -> NoDup l.
Proof. destruct (list_eq_dec string_dec (nodup string_dec l) l) as [E|E]; [intros _; rewrite <- E; apply NoDup_nodup|discriminate]. Qed.
Lemma icmp4_nodup : NoDup (map fst icmp_type4).
Proof. apply nodup_table. reflexivity. Qed.
Lemma icmp6_nodup : NoDup (map fst icmp_type6).
Proof. apply nodup_table. reflexivity. Qed.
Lemma proto_nodup : NoDup (map fst proto_map).
Proof. apply nodup_table. reflexivity. Qed.

Lemma list_str_eqb_iff a b : list_str_eqb a b = true <-> a = b.
Proof.
  unfold list_str_eqb. revert b. induction a as [|x a IH]; intros [|y b]; cbn [List.length combine forallb fst snd Nat.eqb andb];
    try (split; [discriminate|congruence]); [tauto|].
  destruct (String.eqb_spec x y) as [->|N]; cbn [andb].
  - rewrite IH. split; [congruence|]. intros H. injection H as ->. reflexivity.
  - rewrite andb_false_r. split; congruence.
Qed.
Lemma normalize_af_spec af n : normalize_af af = Ok n <-> family_number af n.
Proof.
  unfold family_number. destruct af as [m|s]; cbn [normalize_af].
  - unfold memb. cbn [map snd af_map existsb].
    destruct (m =? 4) eqn:E4; [|destruct (m =? 6) eqn:E6]; simpl.
    + apply Z.eqb_eq in E4. subst. split; intros H.
      * injection H as <-. left. auto.
      * destruct H as [[H _]|[[_ [H|H]]|[_ H]]]; congruence.
    + apply Z.eqb_eq in E6. subst. split; intros H.
      * injection H as <-. left. auto.
      * destruct H as [[H _]|[[_ [H|H]]|[_ H]]]; congruence.
    + split; [discriminate|]. intros [[H D]|[[_ [H|H]]|[_ H]]]; try discriminate. injection H as ->. lia.
  - unfold af_map. cbn [assoc].
    destruct (String.eqb_spec s "inet") as [->|N1]; [|destruct (String.eqb_spec s "inet6") as [->|N2]; [|destruct (String.eqb_spec s "bridge") as [->|N3]]].
    + split; intros H; [injection H as <-; auto|].
      destruct H as [[H _]|[[-> [H|H]]|[_ H]]]; congruence.
    + split; intros H; [injection H as <-; auto|].
      destruct H as [[H _]|[[-> [H|H]]|[-> H]]]; congruence.
    + split; intros H; [injection H as <-; auto|].
      destruct H as [[H _]|[[-> [H|H]]|[-> H]]]; congruence.
    + split; [discriminate|]. intros [[H _]|[[-> [H|H]]|[-> H]]]; congruence.
Qed.
Lemma normalize_af_error af e : normalize_af af = Raise e -> e = Exn "UnsupportedAFError".
Proof. destruct af as [m|s]; cbn [normalize_af]; [destruct (memb _ _ _)|destruct (assoc _ _)]; congruence. Qed.

Definition lookup_types (table : list (string * Z)) (types : list string) : res (list Z) :=
  mapM (fun x => match assoc x table with Some k => Ok k | None => Raise (Exn "UnknownIcmpTypeError") end) types.
Lemma lookup_types_ok table : NoDup (map fst table) -> forall types l,
  lookup_types table types = Ok l <-> Forall2 (fun x k => In (x, k) table) types l.
Proof.
  intros N. induction types as [|x types IH]; intros l; unfold lookup_types in *; cbn [mapM].
  - split; intros H; [injection H as <-; constructor|inversion H; reflexivity].
  - destruct (assoc x table) as [k|] eqn:E; cbn [bind].
    + destruct (mapM _ types) as [ks|e] eqn:M; cbn [bind].
      * split; intros H.
        { injection H as <-. constructor; [apply assoc_in; exact E|apply IH; reflexivity]. }
        { inversion H as [|? k' ? ks' A B]; subst. apply (in_assoc _ _ _ N) in A. apply IH in B. congruence. }
      * split; [discriminate|]. intros H. inversion H as [|? k' ? ks' A B]; subst. apply IH in B. discriminate.
    + split; [discriminate|]. intros H. inversion H as [|? k' ? ks' A B]; subst.
      apply (in_assoc _ _ _ N) in A. congruence.
Qed.
Lemma lookup_types_error table types e : lookup_types table types = Raise e ->
  e = Exn "UnknownIcmpTypeError" /\ exists x, In x types /\ ~ In x (map fst table).
Proof.
  revert e. induction types as [|x types IH]; intros e; unfold lookup_types in *; cbn [mapM]; [discriminate|].
  destruct (assoc x table) as [k|] eqn:E; cbn [bind].
  - destruct (mapM _ types) as [ks|e'] eqn:M; cbn [bind]; [discriminate|].
    intros H. injection H as <-. destruct (IH _ eq_refl) as (-> & y & I & Y). split; [reflexivity|].
    exists y. simpl. auto.
  - intros H. injection H as <-. split; [reflexivity|]. exists x. simpl. rewrite assoc_none in E. auto.
Qed.

Lemma zsorted l : StronglySorted Z.le (py_sorted Z.leb l).
Proof.
  assert (H : StronglySorted (fun a b => (a <=? b) = true) (py_sorted Z.leb l)).
  { apply (py_sorted_sorted Z.leb (fun _ => True)); [intros; lia|intros; lia|apply Forall_forall; auto]. }
  induction H as [|a k H IH F]; constructor; auto. eapply Forall_impl; [|exact F]. simpl. lia.
Qed.
Lemma zsorted_perm l : Permutation (py_sorted Z.leb l) l.
Proof. apply py_sorted_perm. Qed.
Lemma sorted_unique l k : StronglySorted Z.le l -> StronglySorted Z.le k -> Permutation l k -> l = k.
Proof.
  revert k. induction l as [|a l IH]; intros k L K P.
  - apply Permutation_nil in P. auto.
  - destruct k as [|b k]; [apply Permutation_sym, Permutation_nil in P; discriminate|].
    inversion L as [|? ? L1 L2]; inversion K as [|? ? K1 K2]; subst.
    assert (a = b).
    { assert (A : In a (b :: k)) by (rewrite <- P; simpl; auto).
      assert (B : In b (a :: l)) by (rewrite P; simpl; auto).
      rewrite Forall_forall in L2, K2. destruct A as [A|A]; [auto|]. destruct B as [B|B]; [auto|].
      specialize (L2 _ B). specialize (K2 _ A). lia. }
    subst b. f_equal. apply IH; auto. apply Permutation_cons_inv in P. exact P.
Qed.

Lemma icmp_family_table protocols n table : icmp_family protocols n table ->
  icmp_table n = table /\ NoDup (map fst table) /\
  (n = 4 /\ protocols = ["icmp"%string] \/ n = 6 /\ protocols = ["icmpv6"%string]).
Proof.
  intros [(-> & -> & ->)|(-> & -> & ->)]; (split; [reflexivity|]); split; auto using icmp4_nodup, icmp6_nodup.
Qed.

Lemma normalize_icmp_ok types protocols af l :
  normalize_icmp_types types protocols af = Ok (Some l) <->
  types <> [] /\ StronglySorted Z.le l /\
  exists n table nums, icmp_family protocols n table /\ family_number af n /\
    Forall2 (fun x k => In (x, k) table) types nums /\ Permutation l nums.
Proof.
  unfold normalize_icmp_types. split.
  - destruct types as [|x types]; [discriminate|]. cbn [some negb].
    destruct (list_str_eqb protocols ["icmp"]) eqn:E4; destruct (list_str_eqb protocols ["icmpv6"]) eqn:E6; cbn [negb andb];
      try discriminate; destruct (normalize_af af) as [n|e] eqn:A; cbn [bind]; try discriminate.
    + apply list_str_eqb_iff in E4. apply list_str_eqb_iff in E6. congruence.
    + destruct (n =? 4) eqn:N4; cbn [negb andb orb]; rewrite ?andb_false_r; [|discriminate].
      fold (lookup_types (icmp_table n) (x :: types)).
      destruct (lookup_types (icmp_table n) (x :: types)) as [ks|e] eqn:M; cbn [bind]; [|discriminate].
      intros H. injection H as <-. split; [discriminate|]. split; [apply zsorted|].
      apply Z.eqb_eq in N4. subst n. apply list_str_eqb_iff in E4.
      exists 4, icmp_type4, ks. split; [left; auto|]. split; [apply normalize_af_spec; exact A|].
      split; [apply (lookup_types_ok _ icmp4_nodup); exact M|apply zsorted_perm].
    + destruct (n =? 6) eqn:N6; cbn [negb andb orb]; rewrite ?andb_false_r; [|discriminate].
      fold (lookup_types (icmp_table n) (x :: types)). cbn [orb].
      destruct (lookup_types (icmp_table n) (x :: types)) as [ks|e] eqn:M; cbn [bind]; [|discriminate].
      intros H. injection H as <-. split; [discriminate|]. split; [apply zsorted|].
      apply Z.eqb_eq in N6. subst n. apply list_str_eqb_iff in E6.
      exists 6, icmp_type6, ks. split; [right; auto|]. split; [apply normalize_af_spec; exact A|].
      split; [apply (lookup_types_ok _ icmp6_nodup); exact M|apply zsorted_perm].
  - intros (NE & S & n & table & nums & F & A & M & P).
    destruct (icmp_family_table _ _ _ F) as (T & ND & C).
    destruct types as [|x types]; [congruence|]. cbn [some negb].
    apply normalize_af_spec in A. apply (lookup_types_ok _ ND) in M. unfold lookup_types in M. rewrite <- T in M.
    assert (l = py_sorted Z.leb nums) as ->.
    { apply sorted_unique; [exact S|apply zsorted|]. rewrite P. symmetry. apply zsorted_perm. }
    destruct C as [(-> & ->)|(-> & ->)].
    + change (list_str_eqb ["icmp"%string] ["icmp"%string]) with true.
      change (list_str_eqb ["icmp"%string] ["icmpv6"%string]) with false. cbn [negb andb]. rewrite A. cbn [bind].
      cbn [Z.eqb negb andb orb]. rewrite M. reflexivity.
    + change (list_str_eqb ["icmpv6"%string] ["icmpv6"%string]) with true.
      change (list_str_eqb ["icmpv6"%string] ["icmp"%string]) with false. cbn [negb andb]. rewrite A. cbn [bind].
      change (6 =? 6) with true. cbn [negb andb orb]. rewrite M. reflexivity.
Qed.
Lemma normalize_icmp_none types protocols af :
  normalize_icmp_types types protocols af = Ok None <-> types = [].
Proof.
  unfold normalize_icmp_types. destruct types as [|x types]; cbn [some negb]; [tauto|].
  split; [|discriminate]. destruct (_ && _); [discriminate|].
  destruct (normalize_af af); cbn [bind]; [|discriminate]. destruct (_ || _); [discriminate|].
  destruct (mapM _ _); cbn [bind]; discriminate.
Qed.
Lemma normalize_icmp_error types protocols af e :
  normalize_icmp_types types protocols af = Raise e -> types <> [] /\
  ((e = Exn "UnsupportedFilterError" /\ protocols <> ["icmp"%string] /\ protocols <> ["icmpv6"%string]) \/
   (e = Exn "UnsupportedAFError" /\ forall n, ~ family_number af n) \/
   (e = Exn "MismatchIcmpInetError" /\ exists n, family_number af n /\ forall table, ~ icmp_family protocols n table) \/
   (e = Exn "UnknownIcmpTypeError" /\ exists n table x, family_number af n /\ icmp_family protocols n table /\
      In x types /\ ~ In x (map fst table))).
Proof.
  unfold normalize_icmp_types. destruct types as [|x types]; cbn [some negb]; [discriminate|].
  intros H. split; [discriminate|].
  destruct (list_str_eqb protocols ["icmp"]) eqn:E4; destruct (list_str_eqb protocols ["icmpv6"]) eqn:E6; cbn [negb andb] in H.
  - apply list_str_eqb_iff in E4. apply list_str_eqb_iff in E6. congruence.
  - apply list_str_eqb_iff in E4. subst.
    destruct (normalize_af af) as [n|e'] eqn:A; cbn [bind] in H.
    + destruct (n =? 4) eqn:N4; cbn [negb andb orb] in H; rewrite ?andb_false_r in H; cbn [orb] in H.
      * apply Z.eqb_eq in N4. subst n. fold (lookup_types (icmp_table 4) (x :: types)) in H.
        destruct (lookup_types (icmp_table 4) (x :: types)) as [ks|e2] eqn:M; cbn [bind] in H; [discriminate|].
        injection H as <-. apply lookup_types_error in M. destruct M as (-> & y & I & Y).
        right. right. right. split; [reflexivity|]. exists 4, icmp_type4, y.
        split; [apply normalize_af_spec; exact A|]. split; [left; auto|auto].
      * injection H as <-. right. right. left. split; [reflexivity|]. exists n.
        split; [apply normalize_af_spec; exact A|]. intros table [(_ & -> & _)|(D & _)]; [lia|discriminate].
    + injection H as <-. right. left. split; [eapply normalize_af_error; exact A|].
      intros n F. apply normalize_af_spec in F. congruence.
  - apply list_str_eqb_iff in E6. subst.
    destruct (normalize_af af) as [n|e'] eqn:A; cbn [bind] in H.
    + destruct (n =? 6) eqn:N6; cbn [negb andb orb] in H; rewrite ?andb_false_r in H; cbn [orb] in H.
      * apply Z.eqb_eq in N6. subst n. fold (lookup_types (icmp_table 6) (x :: types)) in H.
        destruct (lookup_types (icmp_table 6) (x :: types)) as [ks|e2] eqn:M; cbn [bind] in H; [discriminate|].
        injection H as <-. apply lookup_types_error in M. destruct M as (-> & y & I & Y).
        right. right. right. split; [reflexivity|]. exists 6, icmp_type6, y.
        split; [apply normalize_af_spec; exact A|]. split; [right; auto|auto].
      * injection H as <-. right. right. left. split; [reflexivity|]. exists n.
        split; [apply normalize_af_spec; exact A|]. intros table [(D & _)|(_ & -> & _)]; [discriminate|lia].
    + injection H as <-. right. left. split; [eapply normalize_af_error; exact A|].
      intros n F. apply normalize_af_spec in F. congruence.
  - injection H as <-. left. split; [reflexivity|]. split; intros ->; discriminate.
Qed.
