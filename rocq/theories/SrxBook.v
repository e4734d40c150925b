(** Address books of SRX configurations: what the names in them stand for. *)
From Coq Require Import Lia ZifyBool ZifyNat Permutation.
From Verif Require Import SpecSrx BaseFacts IPFacts PyStrFacts CollapseProofs ExcludeProofs GenProofs CiscoDup NftChains CiscoProofs SrxText SrxRead.
Local Open Scope string_scope.
Local Open Scope list_scope.
Local Open Scope Z_scope.

(** ** Adding one address to the addresses of a name *)
Lemma insert_from all a : forall l y, In y (book_insert all l a) -> In y all \/ y = a.
Proof.
  induction l as [|ip l IH]; intros y; cbn [book_insert].
  - intros I. apply in_app_or in I. destruct I as [I|[<-|[]]]; auto.
  - destruct (supernet_of ip a); [auto|]. destruct (supernet_of a ip); [|apply IH].
    intros I. apply in_map_iff in I. destruct I as (z & E & I). destruct (net_eqb z ip); subst; auto.
Qed.
Lemma insert_some all a : forall l, book_insert all l a <> [] \/ all = [] /\ l <> [].
Proof.
  induction l as [|ip l IH]; cbn [book_insert].
  - left. destruct all; discriminate.
  - destruct (supernet_of ip a); [destruct all; [right; split; [reflexivity|discriminate]|left; discriminate]|].
    destruct (supernet_of a ip).
    + destruct all; [right; split; [reflexivity|discriminate]|left; discriminate].
    + destruct IH as [IH|(E & N)]; [left; exact IH|right; split; [exact E|discriminate]].
Qed.
Lemma insert_nonempty l a : book_insert l l a <> [].
Proof. destruct l as [|ip r]; [discriminate|]. destruct (insert_some (ip :: r) a (ip :: r)) as [H|(H & _)]; [exact H|discriminate H]. Qed.
Lemma insert_covers all a x : valid_list all -> valid a -> forall l, (forall y, In y l -> In y all) ->
  covered (book_insert all l a) x <-> covered all x \/ covers a x.
Proof.
  intros V Va. induction l as [|ip l IH]; intros L; cbn [book_insert].
  - unfold covered. split.
    + intros (n & I & C). apply in_app_or in I. destruct I as [I|[<-|[]]]; eauto.
    + intros [(n & I & C)|C]; [exists n|exists a]; (split; [apply in_or_app; cbn; auto|exact C]).
  - assert (Ip : In ip all) by (apply L; left; reflexivity). assert (Vp : valid ip) by (apply (valid_in all); assumption).
    destruct (supernet_of ip a) eqn:S1.
    + unfold supernet_of in S1. apply subnet_of_spec in S1; [|exact Va|exact Vp]. split; [auto|]. intros [H|C]; [exact H|]. exists ip. split; [exact Ip|apply S1, C].
    + destruct (supernet_of a ip) eqn:S2; [|apply IH; intros y I; apply L; right; exact I].
      unfold supernet_of in S2. apply subnet_of_spec in S2; [|exact Vp|exact Va]. unfold covered. split.
      * intros (n & I & C). apply in_map_iff in I. destruct I as (z & E & I). destruct (net_eqb z ip); subst; eauto.
      * intros [(n & I & C)|C].
        -- destruct (net_eqb n ip) eqn:E.
           ++ exists a. split; [apply in_map_iff; exists n; rewrite E; auto|]. apply S2.
              apply net_eqb_spec in E; [|apply (valid_in all); assumption|exact Vp]. unfold prefix_of in E.
              assert (E1 : nver n = nver ip /\ naddr n = naddr ip /\ nlen n = nlen ip) by (repeat split; congruence). destruct E1 as (E1 & E2 & E3).
              unfold covers, size in *. rewrite E1, E2, E3 in C. exact C.
           ++ exists n. split; [apply in_map_iff; exists n; rewrite E; auto|exact C].
        -- exists a. split; [apply in_map_iff; exists ip; split; [|exact Ip]|exact C].
           assert (E : net_eqb ip ip = true) by (apply net_eqb_spec; auto). rewrite E. reflexivity.
Qed.

(** ** Books as functions of a zone and a name *)
Lemma assoc_update {A} k k' (d : A) f m : assoc k' (update k d f m) =
  if String.eqb k' k then Some (f (match assoc k m with Some x => x | None => d end)) else assoc k' m.
Proof.
  induction m as [|(j & x) m IH].
  - cbn. destruct (String.eqb k' k); reflexivity.
  - cbn [update]. destruct (String.eqb k j) eqn:E.
    + apply String.eqb_eq in E. subst j. cbn [assoc]. rewrite String.eqb_refl. destruct (String.eqb k' k) eqn:F; reflexivity.
    + cbn [assoc]. rewrite E, IH. destruct (String.eqb k' j) eqn:F; [|reflexivity]. apply String.eqb_eq in F. subst k'.
      rewrite String.eqb_sym, E. reflexivity.
Qed.
Lemma update_keys {A} k (d : A) f m j : In j (map fst (update k d f m)) <-> j = k \/ In j (map fst m).
Proof.
  induction m as [|(i & x) m IH]; cbn [update map fst In].
  - intuition congruence.
  - destruct (String.eqb k i) eqn:E; cbn [map fst In].
    + apply String.eqb_eq in E. subst i. intuition congruence.
    + rewrite IH. tauto.
Qed.
Lemma update_nodup {A} k (d : A) f m : NoDup (map fst m) -> NoDup (map fst (update k d f m)).
Proof.
  induction m as [|(i & x) m IH]; intros N; cbn [update].
  - cbn. constructor; [intros []|constructor].
  - cbn [map fst] in N. inversion N as [|? ? N1 N2]; subst. destruct (String.eqb k i) eqn:E; cbn [map fst].
    + constructor; assumption.
    + constructor; [|apply IH, N2]. rewrite update_keys. intros [->|I]; [rewrite String.eqb_refl in E; discriminate E|exact (N1 I)].
Qed.
Lemma update_in {A} k (d : A) f m j y : In (j, y) (update k d f m) -> In (j, y) m \/ j = k /\ (y = f d \/ exists x, In (k, x) m /\ y = f x).
Proof.
  induction m as [|(i & x) m IH]; cbn [update].
  - intros [E|[]]. apply pair_equal_spec in E. destruct E as (-> & ->). auto.
  - destruct (String.eqb k i) eqn:E.
    + apply String.eqb_eq in E. subst i. intros [F|I]; [|left; right; exact I]. apply pair_equal_spec in F. destruct F as (-> & <-). right. split; [reflexivity|].
      right. exists x. split; [left; reflexivity|reflexivity].
    + intros [F|I]; [left; left; exact F|]. destruct (IH I) as [H|(-> & [->|(z & J & ->)])]; [left; right; exact H|right; auto|].
      right. split; [reflexivity|]. right. exists z. split; [right; exact J|reflexivity].
Qed.
Definition book_entry (b : list (string * list (string * list net))) (z n : string) : option (list net) :=
  match assoc z b with Some names => assoc n names | None => None end.
Definition addresses_of (b : list (string * list (string * list net))) (z n : string) : list net :=
  match book_entry b z n with Some l => l | None => [] end.
Lemma entry_build z b a z' n : book_entry (build_address_book z b a) z' n =
  if String.eqb z' z && String.eqb n (nptoken a) then Some (book_insert (addresses_of b z (nptoken a)) (addresses_of b z (nptoken a)) a) else book_entry b z' n.
Proof.
  unfold build_address_book, book_entry at 1. rewrite assoc_update. destruct (String.eqb z' z) eqn:E; [|reflexivity].
  apply String.eqb_eq in E. subst z'. rewrite assoc_update. cbn [andb]. unfold addresses_of, book_entry. destruct (assoc z b) as [names|].
  - destruct (String.eqb n (nptoken a)) eqn:F; reflexivity.
  - cbn [assoc]. destruct (String.eqb n (nptoken a)) eqn:F; reflexivity.
Qed.
Record book_shape (vs : list ver) (N : string -> Prop) (b : list (string * list (string * list net))) : Prop := {
  bs_zones : NoDup (map fst b);
  bs_names : forall z names, In (z, names) b -> NoDup (map fst names);
  bs_entry : forall z n l, book_entry b z n = Some l -> N n /\ l <> [] /\ valid_list l /\ forall a, In a l -> nptoken a = n /\ In (nver a) vs }.
Definition address_good (vs : list ver) (N : string -> Prop) (a : net) : Prop := N (nptoken a) /\ valid a /\ In (nver a) vs.
Lemma build_shape vs N z b a : book_shape vs N b -> address_good vs N a -> book_shape vs N (build_address_book z b a).
Proof.
  intros [Z U S] (Na & Va & Fa). constructor.
  - apply update_nodup, Z.
  - intros z' names I. unfold build_address_book in I. apply update_in in I. destruct I as [I|(-> & [->|(x & I & ->)])].
    + exact (U _ _ I).
    + apply update_nodup. constructor.
    + apply update_nodup. exact (U _ _ I).
  - intros z' n l. rewrite entry_build. destruct (String.eqb z' z && String.eqb n (nptoken a)) eqn:E; [|apply S].
    apply andb_true_iff in E. destruct E as (_ & E). apply String.eqb_eq in E. subst n. intros H.
    assert (H' : l = book_insert (addresses_of b z (nptoken a)) (addresses_of b z (nptoken a)) a) by congruence. subst l.
    assert (O : valid_list (addresses_of b z (nptoken a)) /\ forall y, In y (addresses_of b z (nptoken a)) -> nptoken y = nptoken a /\ In (nver y) vs).
    { unfold addresses_of. destruct (book_entry b z (nptoken a)) as [l|] eqn:B; [destruct (S _ _ _ B) as (_ & _ & A1 & A2); auto|]. split; [constructor|intros y []]. }
    destruct O as (O1 & O2). split; [exact Na|]. split; [apply insert_nonempty|]. split.
    + apply Forall_forall. intros y I. apply insert_from in I. destruct I as [I| ->]; [exact (valid_in _ _ O1 I)|exact Va].
    + intros y I. apply insert_from in I. destruct I as [I| ->]; auto.
Qed.
Lemma addresses_valid vs N b z n : book_shape vs N b -> valid_list (addresses_of b z n).
Proof. intros S. unfold addresses_of. destruct (book_entry b z n) as [l|] eqn:B; [apply (bs_entry _ _ _ S _ _ _ B)|constructor]. Qed.
Lemma build_covers vs N z b a n x : book_shape vs N b -> address_good vs N a ->
  covered (addresses_of (build_address_book z b a) z n) x <-> covered (addresses_of b z n) x \/ nptoken a = n /\ covers a x.
Proof.
  intros S (Na & Va & Fa). unfold addresses_of at 1. rewrite entry_build, String.eqb_refl. cbn [andb]. destruct (String.eqb n (nptoken a)) eqn:E.
  - apply String.eqb_eq in E. subst n. rewrite insert_covers; [|exact (addresses_valid _ _ _ _ _ S)|exact Va|auto]. tauto.
  - apply String.eqb_neq in E. fold (addresses_of b z n). split; [auto|]. intros [H|(H & _)]; [exact H|]. congruence.
Qed.
Lemma fold_build vs N z : forall l b, book_shape vs N b -> (forall a, In a l -> address_good vs N a) ->
  let b' := fold_left (build_address_book z) l b in
  book_shape vs N b' /\
  (forall n x, covered (addresses_of b' z n) x <-> covered (addresses_of b z n) x \/ exists a, In a l /\ nptoken a = n /\ covers a x) /\
  (forall z' n, z' <> z -> book_entry b' z' n = book_entry b z' n) /\
  (forall z' n, book_entry b' z' n = None <-> book_entry b z' n = None /\ ~ (z' = z /\ In n (map nptoken l))).
Proof.
  induction l as [|a l IH]; intros b S G; cbn zeta; cbn [fold_left].
  - split; [exact S|]. split; [|split; [reflexivity|]].
    + intros n x. split; [auto|]. intros [H|(a & [] & _)]. exact H.
    + intros z' n. split; [intros H; split; [exact H|intros (_ & [])]|tauto].
  - assert (Ga : address_good vs N a) by (apply G; left; reflexivity).
    destruct (IH (build_address_book z b a) (build_shape vs N z b a S Ga) (fun y I => G y (or_intror I))) as (I1 & I2 & I3 & I4).
    split; [exact I1|]. split; [|split].
    + intros n x. rewrite I2, (build_covers vs N z b a n x S Ga). split.
      * intros [[H|(E & C)]|(y & I & E & C)]; [left; exact H|right; exists a; cbn; auto|right; exists y; cbn; auto].
      * intros [H|(y & [<-|I] & E & C)]; [left; left; exact H|left; right; auto|right; exists y; auto].
    + intros z' n H. rewrite I3 by exact H. rewrite entry_build. apply String.eqb_neq in H. rewrite H. reflexivity.
    + intros z' n. rewrite I4, entry_build. cbn [map In]. destruct (String.eqb z' z && String.eqb n (nptoken a)) eqn:E.
      * apply andb_true_iff in E. destruct E as (E1 & E2). apply String.eqb_eq in E1, E2. subst. split; [intros (H & _); discriminate H|].
        intros (_ & H). exfalso. apply H. auto.
      * apply andb_false_iff in E. split.
        -- intros (H1 & H2). split; [exact H1|]. intros (-> & [F|I]); [|apply H2; auto]. subst n. rewrite !String.eqb_refl in E. destruct E; discriminate.
        -- intros (H1 & H2). split; [exact H1|]. intros (-> & I). apply H2. auto.
Qed.

(** ** What the names stand for *)
Record book_ok (vs : list ver) (N : string -> Prop) (D : string -> string -> ipaddr -> Prop) (b : list (string * list (string * list net))) : Prop := {
  bo_shape : book_shape vs N b;
  bo_says : forall z n l x, book_entry b z n = Some l -> in_families vs x -> covered l x <-> D z n x }.
Definition side_good (vs : list ver) (N : string -> Prop) (D : string -> ipaddr -> Prop) (l : list net) : Prop :=
  (forall a, In a l -> address_good vs N a) /\
  forall n x, In n (map nptoken l) -> in_families vs x -> D n x <-> exists a, In a l /\ nptoken a = n /\ covers a x.
Lemma fold_book_ok vs N D z l b : book_ok vs N D b -> side_good vs N (D z) l ->
  book_ok vs N D (fold_left (build_address_book z) l b) /\
  (forall z' n, book_entry (fold_left (build_address_book z) l b) z' n = None <-> book_entry b z' n = None /\ ~ (z' = z /\ In n (map nptoken l))).
Proof.
  intros [S W] (G & E). destruct (fold_build vs N z l b S G) as (I1 & I2 & I3 & I4). split; [|exact I4].
  constructor; [exact I1|]. intros z' n k x B Fx. destruct (string_dec z' z) as [->|Nz].
  - pose proof (I2 n x) as C. unfold addresses_of in C. rewrite B in C. rewrite C. destruct (in_dec string_dec n (map nptoken l)) as [I|I].
    + rewrite <- (E n x I Fx). destruct (book_entry b z n) as [k0|] eqn:B0; [rewrite (W _ _ _ _ B0 Fx); tauto|]. split; [intros [(m & [] & _)|H]; exact H|auto].
    + assert (No : forall a, In a l -> nptoken a <> n) by (intros a Ia <-; apply I, in_map, Ia).
      destruct (book_entry b z n) as [k0|] eqn:B0.
      * rewrite (W _ _ _ _ B0 Fx). split; [intros [H|(a & Ia & F & _)]; [exact H|destruct (No a Ia F)]|auto].
      * exfalso. assert (H : book_entry (fold_left (build_address_book z) l b) z n = None) by (apply I4; split; [exact B0|tauto]). congruence.
  - rewrite I3 in B by exact Nz. apply (W _ _ _ _ B Fx).
Qed.

(** ** Lists that are in the book already *)
Lemma nets_eqb_spec a : forall b, valid_list a -> valid_list b -> nets_eqb a b = true -> map prefix_of a = map prefix_of b.
Proof.
  induction a as [|x a IH]; intros [|y b] A B H; try discriminate H; [reflexivity|]. cbn [nets_eqb] in H. apply andb_true_iff in H. destruct H as (H1 & H2).
  inversion A; inversion B; subst. cbn [map]. rewrite (IH b) by assumption. f_equal. apply net_eqb_spec; assumption.
Qed.
Lemma prefix_covered a b x : map prefix_of a = map prefix_of b -> covered a x -> covered b x.
Proof.
  intros E (n & I & C). apply (in_map prefix_of) in I. rewrite E in I. apply in_map_iff in I. destruct I as (m & F & I). exists m. split; [exact I|].
  unfold prefix_of in F. assert (F1 : nver m = nver n /\ naddr m = naddr n /\ nlen m = nlen n) by (repeat split; congruence).
  destruct F1 as (F1 & F2 & F3). unfold covers, size in *. rewrite F1, F2, F3. exact C.
Qed.
Definition known_list (b : list (string * list (string * list net))) (r : list net) : Prop := exists z n, book_entry b z n = Some r.
Lemma replace_known_spec vs N b l : book_shape vs N b -> valid_list l ->
  replace_known b l = l \/ known_list b (replace_known b l) /\ map prefix_of (replace_known b l) = map prefix_of l.
Proof.
  intros S V. unfold replace_known.
  set (step := fun l0 (zone : string * list (string * list net)) => fold_left (fun l e => if nets_eqb l (snd e) then snd e else l) (py_sorted (fun x y => str_leb (fst x) (fst y)) (snd zone)) l0).
  set (good := fun r => r = l \/ known_list b r /\ map prefix_of r = map prefix_of l).
  assert (Gv : forall r, good r -> valid_list r /\ map prefix_of r = map prefix_of l).
  { intros r [->|((z & n & E) & P)]; [auto|]. split; [apply (bs_entry _ _ _ S _ _ _ E)|exact P]. }
  assert (Go : forall zones, (forall z, In z zones -> In z b) -> forall r, good r -> good (fold_left step zones r)).
  { induction zones as [|(z & names) zones IH]; intros Sub r G; [exact G|]. cbn [fold_left]. apply IH; [intros y I; apply Sub; right; exact I|].
    assert (Iz : In (z, names) b) by (apply Sub; left; reflexivity). unfold step. cbn [snd].
    assert (Gi : forall es, (forall e, In e es -> In e names) -> forall r, good r -> good (fold_left (fun l e => if nets_eqb l (snd e) then snd e else l) es r)).
    { induction es as [|(n & k) es IHe]; intros Se r0 G0; [exact G0|]. cbn [fold_left snd]. apply IHe; [intros e I; apply Se; right; exact I|].
      destruct (nets_eqb r0 k) eqn:E; [|exact G0]. assert (In0 : In (n, k) names) by (apply Se; left; reflexivity).
      assert (K : book_entry b z n = Some k).
      { unfold book_entry. rewrite (assoc_unique z names b (bs_zones _ _ _ S) Iz). apply assoc_unique; [exact (bs_names _ _ _ S _ _ Iz)|exact In0]. }
      destruct (Gv r0 G0) as (Vr & Pr). right. split; [exists z, n; exact K|]. rewrite <- Pr. symmetry. apply nets_eqb_spec; [exact Vr|apply (bs_entry _ _ _ S _ _ _ K)|exact E]. }
    apply Gi; [|exact G]. intros e I. apply py_sorted_in in I. exact I. }
  exact (Go b (fun z I => I) l (or_introl eq_refl)).
Qed.

(** ** One side of a term *)
Definition side_list (b : list (string * list (string * list net))) (global : bool) (l : list net) : list net := if global then replace_known b l else l.
Lemma family_mem vs n : existsb (ver_eqb (nver n)) vs = true <-> In (nver n) vs.
Proof.
  rewrite existsb_exists. split.
  - intros (v & I & E). assert (F : nver n = v) by (destruct (nver n), v; cbn in E; congruence). rewrite F. exact I.
  - intros I. exists (nver n). split; [exact I|]. destruct (nver n); reflexivity.
Qed.
Lemma covers_family vs n x : in_families vs x -> covers n x -> In (nver n) vs.
Proof. intros (I & _) (E & _). rewrite E. exact I. Qed.
Lemma filter_covered vs l x : in_families vs x -> covered (filter (fun n => existsb (ver_eqb (nver n)) vs) l) x <-> covered l x.
Proof.
  intros F. unfold covered. split; intros (n & I & C).
  - apply filter_In in I. exists n. tauto.
  - exists n. split; [|exact C]. apply filter_In. split; [exact I|]. apply family_mem, (covers_family vs n x F C).
Qed.
Lemma some_nil {A} (l : list A) : some l = false <-> l = [].
Proof. destruct l; cbn; split; congruence. Qed.
Lemma valid_known vs N b l : book_shape vs N b -> known_list b l -> srx_valid vs l = Some l /\ l <> [].
Proof.
  intros S (z & n & E). destruct (bs_entry _ _ _ S _ _ _ E) as (_ & Nn & _ & F). split; [|exact Nn]. unfold srx_valid.
  assert (Fl : filter (fun m => existsb (ver_eqb (nver m)) vs) l = l).
  { clear - F. induction l as [|a l IH]; [reflexivity|]. cbn [filter]. assert (H : existsb (ver_eqb (nver a)) vs = true) by (apply family_mem, F; left; reflexivity).
    rewrite H, IH; [reflexivity|]. intros y I. apply F. right. exact I. }
  rewrite Fl. destruct l; [congruence|reflexivity].
Qed.
(** A list taken from the book. *)
Lemma known_side vs N D b z l : book_ok vs N D b -> (forall z z' n x, D z n x <-> D z' n x) -> known_list b l ->
  side_good vs N (D z) l /\ forall x, in_families vs x -> (exists n, In n (map nptoken l) /\ D z n x) <-> covered l x.
Proof.
  intros [S W] Z (z0 & n0 & E). destruct (bs_entry _ _ _ S _ _ _ E) as (Nn & Ne & V & F).
  assert (T : forall n, In n (map nptoken l) -> n = n0) by (intros n I; apply in_map_iff in I; destruct I as (a & <- & I); apply F, I).
  split; [split|].
  - intros a I. destruct (F a I) as (F1 & F2). unfold address_good. rewrite F1. split; [exact Nn|]. split; [exact (valid_in _ _ V I)|exact F2].
  - intros n x I Fx. pose proof (T n I) as ->. rewrite (Z z z0), <- (W _ _ _ _ E Fx). unfold covered. split.
    + intros (a & Ia & C). exists a. split; [exact Ia|]. split; [apply F, Ia|exact C].
    + intros (a & Ia & _ & C). eauto.
  - intros x Fx. split.
    + intros (n & I & Hd). pose proof (T n I) as ->. apply (W _ _ _ _ E Fx), (Z z0 z), Hd.
    + intros C. exists n0. split; [|apply (Z z z0), (W _ _ _ _ E Fx), C]. destruct l as [|a l]; [congruence|]. left. apply F. left. reflexivity.
Qed.
Definition side_result (vs : list ver) (N : string -> Prop) (D : string -> ipaddr -> Prop) (matches : ipaddr -> Prop) (r : option (list net)) : Prop :=
  match r with
  | None => forall x, in_families vs x -> ~ matches x
  | Some l => side_good vs N D l /\ forall x, in_families vs x -> (l = [] \/ exists n, In n (map nptoken l) /\ D n x) <-> matches x
  end.
(** A list whose names are settled by the list itself. *)
Lemma own_side vs (N : string -> Prop) (D : string -> ipaddr -> Prop) l : valid_list l -> (forall a, In a l -> N (nptoken a)) ->
  (forall n x, In n (map nptoken l) -> in_families vs x -> D n x <-> exists a, In a l /\ nptoken a = n /\ covers a x) ->
  side_result vs N D (fun x => l = [] \/ covered l x) (srx_valid vs l).
Proof.
  intros V Nl E. unfold srx_valid. destruct (some l) eqn:Sl.
  - set (f := filter (fun m => existsb (ver_eqb (nver m)) vs) l). destruct (some f) eqn:Sf.
    + cbn [side_result]. assert (If : forall a, In a f <-> In a l /\ In (nver a) vs) by (intros a; unfold f; rewrite filter_In, family_mem; reflexivity).
      assert (G : side_good vs N D f).
      { split.
        - intros a I. apply If in I. destruct I as (I & F). split; [apply Nl, I|]. split; [exact (valid_in _ _ V I)|exact F].
        - intros n x I Fx. rewrite E; [|apply in_map_iff in I; destruct I as (a & <- & I); apply If in I; apply in_map, I|exact Fx]. split.
          + intros (a & Ia & En & C). exists a. split; [apply If; split; [exact Ia|exact (covers_family vs a x Fx C)]|auto].
          + intros (a & Ia & En & C). exists a. apply If in Ia. tauto. }
      split; [exact G|]. intros x Fx. split.
      * intros [H|(n & I & Hd)]; [rewrite H in Sf; discriminate Sf|]. right. apply (proj2 G n x I Fx) in Hd. destruct Hd as (a & Ia & _ & C).
        apply If in Ia. exists a. tauto.
      * intros [H|(a & Ia & C)]; [rewrite H in Sl; discriminate Sl|]. right. assert (Ia' : In a f) by (apply If; split; [exact Ia|exact (covers_family vs a x Fx C)]).
        exists (nptoken a). split; [apply in_map, Ia'|]. apply (proj2 G (nptoken a) x (in_map _ _ _ Ia') Fx). eauto.
    + cbn [side_result]. intros x Fx [H|C]; [rewrite H in Sl; discriminate Sl|]. apply (filter_covered vs l x Fx) in C. fold f in C.
      apply some_nil in Sf. rewrite Sf in C. destruct C as (n & [] & _).
  - apply some_nil in Sl. subst l. cbn [side_result]. split; [split; [intros a []|intros n x []]|]. intros x _. split; auto.
Qed.
Lemma result_ext vs (N : string -> Prop) D P Q r : (forall x, in_families vs x -> P x <-> Q x) -> side_result vs N D P r -> side_result vs N D Q r.
Proof.
  intros E. destruct r as [l|]; cbn [side_result].
  - intros (G & H). split; [exact G|]. intros x Fx. rewrite <- (E x Fx). apply H, Fx.
  - intros H x Fx M. exact (H x Fx (proj2 (E x Fx) M)).
Qed.
Lemma renamed_prefix tok l : map prefix_of (map (renamed tok) l) = map prefix_of l.
Proof. rewrite map_map. apply map_ext. reflexivity. Qed.
Lemma srx_side_spec vs (N : string -> Prop) D b global z name suffix inc exc l : book_ok vs N D b -> (global = true -> forall z z' n x, D z n x <-> D z' n x) ->
  srx_side_ok vs inc exc -> (forall n, In n (side_names name suffix inc exc) -> N n) -> side_settled vs (D z) name suffix inc exc ->
  srx_exclude name suffix inc exc = Ok l ->
  side_result vs N (D z) (side_matches inc exc) (srx_valid vs (side_list b global l)).
Proof.
  intros B Z (Vi & Ve & X) Ns St E. pose proof (bo_shape _ _ _ _ B) as S.
  (* the list itself, and what it covers *)
  assert (K : valid_list l /\ (exc <> [] -> l <> []) /\ (exc = [] -> l = inc) /\ (forall x, in_families vs x -> (l = [] \/ covered l x) <-> side_matches inc exc x) /\
              side_result vs N (D z) (side_matches inc exc) (srx_valid vs l)).
  { unfold srx_exclude in E. destruct exc as [|e exc].
    - cbn [some] in E. apply ok_inj in E. subst l. split; [exact Vi|]. split; [congruence|]. split; [reflexivity|].
      assert (M : forall x, in_families vs x -> (inc = [] \/ covered inc x) <-> side_matches inc [] x).
      { intros x _. unfold side_matches. split; [intros H; split; [exact H|intros (n & [] & _)]|tauto]. }
      split; [exact M|]. apply (result_ext vs N (D z) (fun x => inc = [] \/ covered inc x)); [exact M|]. apply own_side; [exact Vi| |].
      + intros a I. apply Ns. cbn [side_names]. apply in_map, I.
      + intros n x I Fx. cbn [side_settled] in St. apply St; assumption.
    - cbn [some] in E. set (ex := e :: exc) in *. set (inc' := if some inc then inc else [mkNet V4 0 0 (upper name) (upper name) (upper name)]) in *.
      assert (Xe : ex <> []) by (unfold ex; discriminate). destruct (X Xe) as (X1 & (x0 & F0 & M0)).
      assert (Vi' : valid_list inc').
      { unfold inc'. destruct (some inc); [exact Vi|]. constructor; [|constructor]. unfold valid, size. cbn. split; [lia|]. split; [lia|]. exists 0. reflexivity. }
      assert (Mi : forall x, in_families vs x -> (inc = [] \/ covered inc x) <-> covered inc' x).
      { intros x Fx. unfold inc'. destruct (some inc) eqn:Si.
        - split; [intros [->|H]; [discriminate Si|exact H]|auto].
        - apply some_nil in Si. split; [|auto]. intros _. destruct Fx as (F1 & F2). rewrite (X1 Si) in F1. destruct F1 as [F1|[]].
          eexists. split; [left; reflexivity|]. unfold covers, size. cbn [nver naddr nlen]. split; [exact F1|]. rewrite <- F1 in F2. cbn [width] in *. lia. }
      destruct (remove_all_spec ex inc' Vi' Ve) as (r & Er & Vr & Cr). rewrite Er in E. cbn [bind] in E. apply ok_inj in E.
      assert (P : map prefix_of l = map prefix_of r) by (subst l; apply renamed_prefix).
      assert (Cl : forall x, covered l x <-> covered r x) by (intros x; split; apply prefix_covered; congruence).
      assert (Ml : forall x, in_families vs x -> covered l x <-> side_matches inc ex x).
      { intros x Fx. rewrite Cl, Cr, <- (Mi x Fx). reflexivity. }
      assert (Nl : l <> []) by (apply (Ml x0 F0) in M0; destruct M0 as (n & I & _); intros ->; destruct I).
      assert (Vl : valid_list l).
      { subst l. apply Forall_forall. intros n I. apply in_map_iff in I. destruct I as (m & <- & I). exact (valid_in _ _ Vr I). }
      assert (M : forall x, in_families vs x -> (l = [] \/ covered l x) <-> side_matches inc ex x) by (intros x Fx; rewrite <- (Ml x Fx); tauto).
      split; [exact Vl|]. split; [intros _; exact Nl|]. split; [intros H; destruct (Xe H)|]. split; [exact M|].
      apply (result_ext vs N (D z) (fun x => l = [] \/ covered l x)); [exact M|].
      assert (T : forall a, In a l -> nptoken a = (upper name ++ suffix)%string) by (subst l; intros a I; apply in_map_iff in I; destruct I as (m & <- & _); reflexivity).
      apply own_side; [exact Vl| |].
      + intros a I. rewrite (T a I). apply Ns. left. reflexivity.
      + intros n x I Fx. apply in_map_iff in I. destruct I as (a & <- & I). rewrite (T a I). change (forall x, in_families vs x -> (D z (upper name ++ suffix)%string x <-> side_matches inc ex x)) in St.
        rewrite (St x Fx), <- (Ml x Fx). unfold covered. split; [intros (y & Iy & C); exists y; split; [exact Iy|split; [exact (T y Iy)|exact C]]|intros (y & Iy & _ & C); eauto]. }
  destruct K as (Vl & _ & _ & M & R). unfold side_list. destruct global; [|exact R].
  destruct (replace_known_spec vs N b l S Vl) as [->|(Kn & P)]; [exact R|]. destruct (valid_known vs N b _ S Kn) as (-> & Ne).
  cbn [side_result]. destruct (known_side vs N D b z _ B (Z eq_refl) Kn) as (G & C). split; [exact G|]. intros x Fx. rewrite <- (M x Fx), (C x Fx). split.
  - intros [H|H]; [congruence|]. right. apply (prefix_covered _ _ x P H).
  - intros [->|H].
    + exfalso. apply Ne. destruct (replace_known b []) eqn:F; [reflexivity|discriminate P].
    + right. apply (prefix_covered _ _ x (eq_sym P) H).
Qed.
