(** Proofs about looking up definitions. *)
From Coq Require Import Lia Relations Permutation.
From Verif Require Import SpecCgrep BaseFacts PyStrFacts IPFacts TextProofs LoadProofs NamingProofs ParentProofs IpParentProofs JuniperProofs ExcludeProofs.
Local Open Scope string_scope.
Local Open Scope list_scope.

Section Table.
  Context (parse_ip : string -> option net) (t : table) (WF : well_formed t) (RN : reads_networks parse_ip).

  Lemma net_in_valid T n : net_in parse_ip t T n -> valid n.
  Proof. induction 1 as [T v c n E N P|T v c m E N I IH]; [|exact IH]. apply RN in P. exact P. Qed.
  Lemma same_version_test a b : (ver_eqb (nver a) (nver b) && subnet_of a b)%bool = subnet_of a b.
  Proof. unfold subnet_of. destruct (ver_eqb (nver a) (nver b)); reflexivity. Qed.
  Lemma get_net_nets fuel q T l : query_token q = Ok T -> get_net parse_ip fuel t q = Ok l ->
    forall n, In n l <-> exists m, net_in parse_ip t T m /\ n = set_parent T m.
  Proof. intros Q E. apply (get_net_ok parse_ip t WF fuel q T l Q E). Qed.
  Lemma encapsulated services fuel qa qb A B b : query_token qa = Ok A -> query_token qb = Ok B ->
    check_encapsulated parse_ip services t fuel "network" qa qb = Ok b ->
    (b = true <-> forall n, net_in parse_ip t A n -> exists m, net_in parse_ip t B m /\ within n m).
  Proof.
    intros Qa Qb E. unfold check_encapsulated in E. change (String.eqb "network" "network") with true in E. cbv iota in E.
    destruct (get_net parse_ip fuel t qa) as [la|] eqn:Ea; [|discriminate E]. destruct (get_net parse_ip fuel t qb) as [lb|] eqn:Eb; [|discriminate E]. cbn [bind] in E.
    injection E as <-. pose proof (get_net_nets fuel qa A la Qa Ea) as Na. pose proof (get_net_nets fuel qb B lb Qb Eb) as Nb.
    unfold each_within. rewrite forallb_forall. split.
    - intros H n I. assert (J : In (set_parent A n) la) by (apply Na; eauto). apply H, existsb_exists in J. destruct J as (m & Jm & S). apply Nb in Jm. destruct Jm as (m' & I' & ->).
      rewrite same_version_test in S. exists m'. split; [exact I'|]. apply subnet_of_spec in S; [exact S|exact (net_in_valid _ _ I)|exact (net_in_valid _ _ I')].
    - intros H n J. apply Na in J. destruct J as (n' & I & ->). destruct (H n' I) as (m & Im & W). apply existsb_exists. exists (set_parent B m). split; [apply Nb; eauto|].
      rewrite same_version_test. apply subnet_of_spec; [exact (net_in_valid _ _ I)|exact (net_in_valid _ _ Im)|exact W].
  Qed.

  (** ** The report of an address *)

  Lemma max_fold l : forall h, let k := fold_left (fun h n => if (h <? nlen n)%Z then nlen n else h) l h in
    (h <= k)%Z /\ (forall n, In n l -> (nlen n <= k)%Z) /\ (k = h \/ exists n, In n l /\ nlen n = k).
  Proof.
    induction l as [|n l IH]; intros h; cbn [fold_left]; [split; [lia|split; [intros n []|left; reflexivity]]|].
    destruct (Z.ltb_spec h (nlen n)) as [L|L]; [destruct (IH (nlen n)) as (A & B & C)|destruct (IH h) as (A & B & C)]; cbv zeta in *.
    - split; [lia|]. split; [intros m [<-|I]; [exact A|apply B, I]|]. right. destruct C as [C|(m & I & C)]; [exists n; split; [left; reflexivity|congruence]|exists m; split; [right; exact I|exact C]].
    - split; [exact A|]. split; [intros m [<-|I]; [lia|apply B, I]|]. destruct C as [C|(m & I & C)]; [left; exact C|right; exists m; split; [right; exact I|exact C]].
  Qed.
  Lemma text_length n : valid n -> length_of (prefixlen_text n) = Some (nlen n).
  Proof. exact (prefix_length_text n). Qed.
  Lemma highest_spec fuel ip q T k nets : parse_ip ip = Some q -> query_token T = Ok T -> nets_and_highest parse_ip t fuel ip T = Ok (k, nets) ->
    shows parse_ip t q T nets /\ longest nets k.
  Proof.
    intros P Q E. unfold nets_and_highest in E. rewrite P in E. destruct (get_net parse_ip fuel t T) as [l|] eqn:El; [|discriminate E]. cbn [bind] in E.
    pose proof (get_net_nets fuel T T l Q El) as N. pose proof (RN _ _ P) as Vq. set (hits := filter _ l) in E.
    assert (H : forall n, In n hits <-> exists m, net_in parse_ip t T m /\ n = set_parent T m /\ within q m).
    { intros n. unfold hits. rewrite filter_In, N, same_version_test. split.
      - intros ((m & I & ->) & S). exists m. split; [exact I|]. split; [reflexivity|]. apply subnet_of_spec in S; [exact S|exact Vq|exact (net_in_valid _ _ I)].
      - intros (m & I & -> & W). split; [eauto|]. apply subnet_of_spec; [exact Vq|exact (net_in_valid _ _ I)|exact W]. }
    assert (V : forall n, In n hits -> valid n) by (intros n I; apply H in I; destruct I as (m & I & -> & _); exact (net_in_valid _ _ I)).
    pose proof (max_fold hits 0%Z) as M. cbv zeta in M. destruct M as (M1 & M2 & M3).
    injection E as <- <-. split.
    - intros s. rewrite in_map_iff. split.
      + intros (n & <- & I). apply H in I. destruct I as (m & I & -> & W). exists m. auto.
      + intros (m & I & W & ->). exists (set_parent T m). split; [reflexivity|]. apply H. eauto.
    - split; [exact M1|]. split.
      + intros s x I L. apply in_map_iff in I. destruct I as (n & <- & I). rewrite (text_length n (V n I)) in L. injection L as <-. apply M2, I.
      + destruct M3 as [M3|(n & I & M3)]; [left; exact M3|]. right. exists (prefixlen_text n). split; [apply in_map, I|]. rewrite (text_length n (V n I)), M3. reflexivity.
  Qed.
End Table.

Lemma sorted_rev_keys {A} (f : A -> Z) l : StronglySorted (fun a b => (f b <= f a)%Z) (py_sorted_rev (fun a b => (f a <=? f b)%Z) l).
Proof.
  unfold py_sorted_rev. assert (S : StronglySorted (fun a b => (f a <=? f b)%Z = true) (py_sorted (fun a b => (f a <=? f b)%Z) (rev l))).
  { apply (py_sorted_sorted _ (fun _ => True)); [intros a b _ _; rewrite !Z.leb_le; lia|intros a b c _ _ _; rewrite !Z.leb_le; lia|apply Forall_forall; auto]. }
  induction S as [|a m S IH F]; [constructor|]. cbn [rev]. rewrite Forall_forall in F.
  assert (G : forall m', StronglySorted (fun a b => (f b <= f a)%Z) m' -> (forall b, In b m' -> (f a <= f b)%Z) -> StronglySorted (fun a b => (f b <= f a)%Z) (m' ++ [a])).
  { intros m' S'. induction S' as [|c m' S' IH' F']; intros H; [repeat constructor|]. cbn [app]. constructor; [apply IH'; intros b I; apply H; right; exact I|].
    apply Forall_app. split; [exact F'|constructor; [apply H; left; reflexivity|constructor]]. }
  apply G; [exact IH|]. intros b I. apply in_rev in I. apply F in I. lia.
Qed.
Lemma mapM_in {A B} (f : A -> res B) l r : mapM f l = Ok r -> (forall y, In y r <-> exists x, In x l /\ f x = Ok y).
Proof.
  revert r. induction l as [|x l IH]; intros r E; cbn [mapM] in E.
  - injection E as <-. intros y. split; [intros []|intros (x & [] & _)].
  - destruct (f x) as [y0|] eqn:Ex; [|discriminate E]. cbn [bind] in E. destruct (mapM f l) as [ys|] eqn:El; [|discriminate E]. cbn [bind] in E. injection E as <-. intros y. split.
    + intros [<-|I]; [exists x; split; [left; reflexivity|exact Ex]|]. apply (IH ys eq_refl) in I. destruct I as (z & I & F). exists z. split; [right; exact I|exact F].
    + intros (z & [<-|I] & F); [left; congruence|]. right. apply (IH ys eq_refl). exists z. auto.
Qed.
Lemma sorted_map {A B} (R : B -> B -> Prop) (S : A -> A -> Prop) (g : A -> B) l : (forall a b, In a l -> In b l -> S a b -> R (g a) (g b)) -> StronglySorted S l -> StronglySorted R (map g l).
Proof.
  intros H Q. induction Q as [|a l Q IH F]; [constructor|]. cbn [map]. constructor; [apply IH; intros x y I J; apply H; right; assumption|].
  rewrite Forall_forall in *. intros y I. apply in_map_iff in I. destruct I as (x & <- & I). apply H; [left; reflexivity|right; exact I|apply F, I].
Qed.

(** ** The whole report *)

Lemma digit_first_start s : digit_start s -> digit_first s = true.
Proof. intros (c & r & -> & D). exact D. Qed.
Section Report.
  Context (parse_ip : string -> option net) (t : table) (WF : well_formed t) (RN : reads_networks parse_ip) (BR : bare_refs t) (KW : forall T, has_definition t T -> word T).

  Lemma value_ref_key q T : contains_value t q T -> has_definition t T.
  Proof.
    intros C. assert (X : exists c p, entry_value t T p c). { apply clos_trans_t1n in C. induction C as [q T (c & E)|q y T _ _ IH]; [eauto|exact IH]. }
    destruct X as (c & p & items & i & I & _). exact (in_map fst _ _ I).
  Qed.
  Lemma defines_key q T : defines parse_ip t q T -> has_definition t T.
  Proof.
    intros (B & (v & c & n & (items & i & I & _) & _) & _ & [-> |C]); [exact (in_map fst _ _ I)|].
    apply (value_ref_key B). clear - C. induction C as [x y (R & _)|x y z _ IH1 _ IH2]; [apply t_step, R|eapply t_trans; eassumption].
  Qed.
  Lemma address_defs fuel ip q l : digit_start ip -> parse_ip ip = Some q -> address_parents fuel parse_ip t ip = Ok l -> forall T, In T l <-> defines parse_ip t q T.
  Proof. intros D P E. unfold address_parents in E. rewrite (digit_first_start ip D), P in E. apply (ip_parents_exact t WF fuel parse_ip q l E). Qed.
  Lemma parents_in fuel q l : get_parents fuel t q = Ok l -> forall T, In T l <-> contains_value t q T.
  Proof. intros E T. split; [exact (get_parents_sound t WF _ _ _ T E)|exact (get_parents_complete t WF BR _ _ _ E T)]. Qed.
  Lemma entries_spec fuel ip q T es : parse_ip ip = Some q -> has_definition t T -> ip_entries parse_ip t fuel ip T = Ok es ->
    exists k nets, shows parse_ip t q T nets /\ longest nets k /\ forall name r, In (name, r) es <-> named t T name /\ r = (k, nets).
  Proof.
    intros P K E. unfold ip_entries in E. destruct (get_parents fuel t T) as [nested|] eqn:En; [|discriminate E]. cbn [bind] in E.
    destruct (nets_and_highest parse_ip t fuel ip T) as [[k nets]|] eqn:Eh; [|discriminate E]. cbn [bind] in E. injection E as <-.
    destruct (highest_spec parse_ip t WF RN fuel ip q T k nets P (query_token_word T (KW T K)) Eh) as (Sh & Lo). exists k, nets. split; [exact Sh|]. split; [exact Lo|].
    pose proof (parents_in fuel T nested En) as Pa. intros name r. unfold named. destruct nested as [|n nested].
    - split.
      + intros [E|[]]. injection E as <- <-. split; [left; split; [reflexivity|]|reflexivity]. intros U C. apply Pa in C. destruct C.
      + intros ([(-> & _)|(U & C & _)] & ->); [left; reflexivity|]. apply Pa in C. destruct C.
    - rewrite in_map_iff. split.
      + intros (U & E & I). injection E as <- <-. split; [|reflexivity]. right. exists U. split; [apply Pa, I|reflexivity].
      + intros ([(_ & N)|(U & C & ->)] & ->); [destruct (N n); apply Pa; left; reflexivity|]. exists U. split; [reflexivity|apply Pa, C].
  Qed.
  Lemma report_spec fuel ip q rs : digit_start ip -> parse_ip ip = Some q -> cgrep_parents parse_ip t fuel ip = Ok rs ->
    (forall name nets, In (name, nets) rs -> exists T, defines parse_ip t q T /\ named t T name /\ shows parse_ip t q T nets) /\
    (forall T name, defines parse_ip t q T -> named t T name -> exists nets, In (name, nets) rs /\ shows parse_ip t q T nets) /\
    StronglySorted (fun a b => forall k l, longest (snd a) k -> longest (snd b) l -> (l <= k)%Z) rs.
  Proof.
    intros D P E. unfold cgrep_parents in E. destruct (address_parents fuel parse_ip t ip) as [vs|] eqn:Ev; [|discriminate E]. cbn [bind] in E.
    destruct (mapM (ip_entries parse_ip t fuel ip) vs) as [es|] eqn:Ee; [|discriminate E]. cbn [bind] in E. injection E as <-.
    pose proof (address_defs fuel ip q vs D P Ev) as A. pose proof (mapM_in _ _ _ Ee) as M.
    assert (I : forall x, In x (py_sorted_rev (fun a b : string * (Z * list string) => (fst (snd a) <=? fst (snd b))%Z) (concat es)) <-> In x (concat es)).
    { intros x. split; apply Permutation_in; [|apply Permutation_sym]; apply py_sorted_rev_perm. }
    assert (C : forall name r, In (name, r) (concat es) -> exists T k nets, defines parse_ip t q T /\ named t T name /\ r = (k, nets) /\ shows parse_ip t q T nets /\ longest nets k).
    { intros name r J. apply in_concat in J. destruct J as (e & Je & J). apply M in Je. destruct Je as (T & JT & F). apply A in JT.
      destruct (entries_spec fuel ip q T e P (defines_key q T JT) F) as (k & nets & Sh & Lo & X). apply X in J. destruct J as (N & ->). exists T, k, nets. auto. }
    split; [|split].
    - intros name nets J. apply in_map_iff in J. destruct J as ([nm r] & Ex & J). cbn [fst snd] in Ex. injection Ex as -> <-. apply I, C in J. destruct J as (T & k & nets' & Df & N & -> & Sh & _).
      exists T. auto.
    - intros T name Df N. assert (JT : In T vs) by (apply A, Df).
      assert (F : exists e, ip_entries parse_ip t fuel ip T = Ok e).
      { clear - Ee JT. revert es Ee. induction vs as [|v vs IH]; intros es Ee; [destruct JT|]. cbn [mapM] in Ee. destruct (ip_entries parse_ip t fuel ip v) as [e|] eqn:Ex; [|discriminate Ee]. cbn [bind] in Ee.
        destruct (mapM (ip_entries parse_ip t fuel ip) vs) as [ys|] eqn:Ey; [|discriminate Ee]. destruct JT as [->|JT]; [eauto|exact (IH JT ys eq_refl)]. }
      destruct F as (e & F). destruct (entries_spec fuel ip q T e P (defines_key q T Df) F) as (k & nets & Sh & Lo & X). exists nets. split; [|exact Sh].
      apply in_map_iff. exists (name, (k, nets)). split; [reflexivity|]. apply I, in_concat. exists e. split; [apply M; eauto|]. apply X. auto.
    - eapply sorted_map; [|apply (sorted_rev_keys (fun a : string * (Z * list string) => fst (snd a)))].
      intros [n1 r1] [n2 r2] J1 J2 Le k l (K0 & K1 & K2) (L0 & L1 & L2). cbn [fst snd] in *. apply I, C in J1. apply I, C in J2.
      destruct J1 as (T1 & k1 & nets1 & _ & _ & -> & _ & (P1 & Q1 & R1)), J2 as (T2 & k2 & nets2 & _ & _ & -> & _ & (P2 & Q2 & R2)). cbn [fst snd] in *.
      assert (l <= k2)%Z by (destruct L2 as [->|(s & Js & Es)]; [exact P2|exact (Q2 s l Js Es)]).
      assert (k1 <= k)%Z by (destruct R1 as [->|(s & Js & Es)]; [exact K0|exact (K1 s k1 Js Es)]). lia.
  Qed.
  Lemma diff_spec fuel ip1 ip2 q1 q2 common diff1 diff2 : digit_start ip1 -> digit_start ip2 -> parse_ip ip1 = Some q1 -> parse_ip ip2 = Some q2 ->
    group_diff parse_ip t fuel ip1 ip2 = Ok (common, diff1, diff2) ->
    (forall s, In s common <-> reported parse_ip t q1 s /\ reported parse_ip t q2 s) /\
    (forall s, In s diff1 <-> reported parse_ip t q1 s /\ ~ reported parse_ip t q2 s) /\
    (forall s, In s diff2 <-> reported parse_ip t q2 s /\ ~ reported parse_ip t q1 s) /\
    StronglySorted str_before common /\ StronglySorted str_before diff1 /\ StronglySorted str_before diff2.
  Proof.
    intros D1 D2 P1 P2 E. unfold group_diff in E. destruct (cgrep_parents parse_ip t fuel ip1) as [r1|] eqn:E1; [|discriminate E]. cbn [bind] in E.
    destruct (cgrep_parents parse_ip t fuel ip2) as [r2|] eqn:E2; [|discriminate E]. cbn [bind] in E. injection E as <- <- <-.
    assert (X : forall ip q rs, digit_start ip -> parse_ip ip = Some q -> cgrep_parents parse_ip t fuel ip = Ok rs -> forall s, In s (map fst rs) <-> reported parse_ip t q s).
    { intros ip q rs D P E s. destruct (report_spec fuel ip q rs D P E) as (A & B & _). rewrite in_map_iff. split.
      - intros ([n nets] & <- & I). apply A in I. destruct I as (T & Df & N & _). exists T. auto.
      - intros (T & Df & N). destruct (B T s Df N) as (nets & I & _). exists (s, nets). auto. }
    pose proof (X ip1 q1 r1 D1 P1 E1) as X1. pose proof (X ip2 q2 r2 D2 P2 E2) as X2.
    assert (Y : forall s l, str_in s l = true <-> In s l) by (intros s l; apply str_in_spec).
    assert (Z : forall s l, negb (str_in s l) = true <-> ~ In s l) by (intros s l; rewrite negb_true_iff, <- Y; destruct (str_in s l); intuition congruence).
    split; [|split; [|split; [|split; [|split]]]]; try apply @ServiceProofs.sorted_set_before.
    - intros s. rewrite sorted_set_in, filter_In, Y, X1, X2. reflexivity.
    - intros s. rewrite sorted_set_in, filter_In, Z, X1, X2. reflexivity.
    - intros s. rewrite sorted_set_in, filter_In, Z, X1, X2. reflexivity.
  Qed.
  Lemma token_spec fuel ip q token r : digit_start ip -> parse_ip ip = Some q -> compare_ip_token parse_ip t fuel token None [ip] = Ok r ->
    (defines parse_ip t q token /\ r = Some (ip ++ " is in " ++ token)%string) \/ (~ defines parse_ip t q token /\ r = Some (ip ++ " is _not_ in " ++ token)%string).
  Proof.
    intros D P E. cbn [compare_ip_token] in E. destruct (address_parents fuel parse_ip t ip) as [vs|] eqn:Ev; [|discriminate E]. cbn [bind] in E. injection E as <-.
    pose proof (address_defs fuel ip q vs D P Ev token) as A. destruct (str_in token vs) eqn:S.
    - left. split; [apply A, str_in_spec, S|reflexivity].
    - right. split; [|reflexivity]. intros X. apply A, str_in_spec in X. congruence.
  Qed.
  Lemma union_spec fuel qa qb A B union diff : query_token qa = Ok A -> query_token qb = Ok B -> compare_tokens parse_ip t fuel qa qb = Ok (union, diff) ->
    (forall x, covered union x <-> def_has parse_ip t A x \/ def_has parse_ip t B x) /\ diff = map prefixlen_text union.
  Proof.
    intros Qa Qb E. unfold compare_tokens in E. destruct (get_net parse_ip fuel t qa) as [la|] eqn:Ea; [|discriminate E]. cbn [bind] in E.
    destruct (get_net parse_ip fuel t qb) as [lb|] eqn:Eb; [|discriminate E]. cbn [bind] in E. injection E as <- <-.
    pose proof (get_net_nets parse_ip t WF fuel qa A la Qa Ea) as Na. pose proof (get_net_nets parse_ip t WF fuel qb B lb Qb Eb) as Nb.
    assert (V : valid_list (la ++ lb)).
    { apply Forall_forall. intros n I. apply in_app_or in I. destruct I as [I|I]; [apply Na in I|apply Nb in I]; destruct I as (m & I & ->); exact (net_in_valid parse_ip t RN _ _ I). }
    split.
    - intros x. rewrite covered_dedup by exact V. unfold covered, def_has. split.
      + intros (n & I & C). apply in_app_or in I. destruct I as [I|I]; [apply Na in I|apply Nb in I]; destruct I as (m & I & ->); [left|right]; exists m; auto.
      + intros [(n & I & C)|(n & I & C)]; [exists (set_parent A n)|exists (set_parent B n)]; (split; [apply in_or_app|exact C]); [left; apply Na; eauto|right; apply Nb; eauto].
    - assert (R : forall l, incl l (la ++ lb) -> flat_map (fun el => if existsb (net_eqb el) la && existsb (net_eqb el) lb then [prefixlen_text el] else if existsb (net_eqb el) la then [prefixlen_text el]
        else if existsb (net_eqb el) lb then [prefixlen_text el] else []) l = map prefixlen_text l).
      { induction l as [|n l IH]; intros Inc; [reflexivity|]. cbn [flat_map map]. rewrite IH by (intros y J; apply Inc; right; exact J).
        assert (Re : net_eqb n n = true) by (unfold net_eqb; rewrite !Z.eqb_refl; destruct (nver n); reflexivity).
        assert (J : existsb (net_eqb n) la = true \/ existsb (net_eqb n) lb = true).
        { specialize (Inc n (or_introl eq_refl)). apply in_app_or in Inc. destruct Inc as [J|J]; [left|right]; apply existsb_exists; exists n; auto. }
        destruct (existsb (net_eqb n) la), (existsb (net_eqb n) lb); destruct J as [J|J]; try discriminate J; reflexivity. }
      apply R. intros n I. apply dedup_incl in I. exact I.
  Qed.
End Report.

(** ** Comparing two definitions of which all networks are known *)

Lemma def_has_nets parse_ip t (WF : well_formed t) fuel T l : query_token T = Ok T -> get_net parse_ip fuel t T = Ok l -> forall x, def_has parse_ip t T x <-> covered l x.
Proof.
  intros Q E x. pose proof (get_net_nets parse_ip t WF fuel T T l Q E) as N. unfold def_has, covered. split.
  - intros (n & I & C). exists (set_parent T n). split; [apply N; eauto|exact C].
  - intros (n & I & C). apply N in I. destruct I as (m & I & ->). exists m. auto.
Qed.

(** ** Services *)

Lemma all_of (f : ascii -> bool) s : s <> "" -> (forall c, occurs c s -> f c = true) -> (nonempty s && forall_char f s)%bool = true.
Proof. intros N H. destruct s as [|c s]; [congruence|]. cbn [nonempty andb negb]. apply forall_char_occurs. exact H. Qed.
Lemma digit_not_alpha c : is_digit c = true -> is_alpha c = false.
Proof. destruct c as [[] [] [] [] [] [] [] []]; cbv; congruence. Qed.
Lemma services_spec t (WF : well_formed t) fuel first second port proto n :
  (forall T, has_definition t T -> word T) -> numeral_value port = Some n ->
  (forall c, occurs c port -> is_digit c = true) -> (forall c, occurs c proto -> is_alpha c = true) ->
  word proto -> ~ occurs "/" proto -> (first, second) = (port, proto) \/ (first, second) = (proto, port) ->
  forall l p q, cgrep_services t fuel first second = Ok (p, q, l) ->
    p = port /\ q = proto /\ l <> [] /\ StronglySorted str_before l /\ forall T, In T l <-> exists s, service_in t T s /\ covers_port s n proto.
Proof.
  intros KW N Dp Ap W O F l p q E. assert (Np : port <> "") by (intros ->; discriminate N). assert (Nq : proto <> "") by (intros ->; destruct W; congruence).
  assert (C : cgrep_services t fuel first second = let! l := get_port_parents fuel t port proto in Ok (port, proto, l)).
  { unfold cgrep_services. destruct F as [F|F]; injection F as -> ->.
    - assert (A : all_alpha port = false).
      { unfold all_alpha. destruct port as [|c s]; [congruence|]. cbn [nonempty negb andb forall_char]. rewrite (digit_not_alpha c (Dp c (or_introl eq_refl))). reflexivity. }
      rewrite A. reflexivity.
    - unfold all_alpha, all_digit. rewrite (all_of is_alpha proto Nq Ap), (all_of is_digit port Np Dp). reflexivity. }
  rewrite C in E. destruct (get_port_parents fuel t port proto) as [l'|] eqn:G; [|discriminate E]. cbn [bind] in E. injection E as <- <- <-.
  split; [reflexivity|]. split; [reflexivity|]. exact (port_parents_exact t WF fuel port proto n l' KW N W O G).
Qed.
