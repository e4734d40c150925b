(** The addresses of a term: whichever way the exclusions are written, the same packets. *)
From Coq Require Import Lia ZifyBool ZifyNat.
From Verif Require Import SpecIptables BaseFacts IPFacts ExcludeProofs IptProofs.
Local Open Scope string_scope.
Local Open Scope list_scope.
Local Open Scope Z_scope.

Definition of_family (v : ver) (x : ipaddr) : Prop := fst x = v /\ 0 <= snd x < 2 ^ width v.
Lemma covered_dec l x : covered l x \/ ~ covered l x.
Proof.
  induction l as [|n l IH]; [right; intros (n & [] & _)|].
  assert (D : covers n x \/ ~ covers n x).
  { unfold covers. destruct (ver_eqb (nver n) (fst x)) eqn:E.
    - assert (nver n = fst x) by (destruct (nver n), (fst x); try discriminate E; reflexivity).
      assert (X : naddr n <= snd x < naddr n + size n \/ ~ (naddr n <= snd x < naddr n + size n)) by lia. tauto.
    - right. intros (X & _). rewrite X in E. destruct (fst x); discriminate E. }
  destruct D as [D|D]; [left; exists n; split; [left; reflexivity|exact D]|].
  destruct IH as [(m & I & C)|N]; [left; exists m; split; [right; exact I|exact C]|].
  right. intros (m & [<-|I] & C); [exact (D C)|]. apply N. exists m. auto.
Qed.
Lemma covered_all v x : of_family v x -> covered [all_ips v] x.
Proof. intros (E & R). exists (all_ips v). split; [left; reflexivity|]. destruct x as (w, a). cbn [fst snd] in *. subst w. apply all_covers, R. Qed.
Lemma covered_mine v l x : of_family v x -> covered (filter (fun n => ver_eqb (nver n) v) l) x <-> covered l x.
Proof.
  intros (E & _). unfold covered. split; intros (n & I & C); exists n; (split; [|exact C]).
  - apply filter_In in I. apply I.
  - apply filter_In. split; [exact I|]. destruct C as (C & _). rewrite C, E. destruct v; reflexivity.
Qed.
Lemma mine_valid v l n : valid_list l -> In n (filter (fun n => ver_eqb (nver n) v) l) -> valid n /\ nver n = v.
Proof.
  intros V I. apply filter_In in I. destruct I as (I & E). split; [exact (proj1 (Forall_forall _ _) V n I)|]. destruct (nver n), v; try discriminate E; reflexivity.
Qed.
Lemma exclude_ok sup ex : valid_list sup -> valid_list ex -> exists r, address_list_exclude sup ex true = Ok r /\ valid_list r /\ forall x, covered r x <-> covered sup x /\ ~ covered ex x.
Proof. intros A B. destruct (address_list_exclude_spec sup ex A B) as (r & E & V & _ & S). exists r. auto. Qed.
Lemma all_list_valid v : valid_list [all_ips v].
Proof. constructor; [apply all_valid|constructor]. Qed.
(** One side: an equivalent pair of lists. *)
Definition pair_says (inc exc a e : list net) (v : ver) : Prop :=
  valid_list a /\ valid_list e /\ forall x, of_family v x -> (covered a x /\ ~ covered e x <-> side_matches inc exc x).
Lemma first_side v inc exc : ipt_side v inc exc ->
  exists cut, (if some exc then address_list_exclude (if some inc then inc else [all_ips v]) exc true else Ok []) = Ok cut /\
    pair_says inc exc (if some inc then inc else [all_ips v]) exc v /\
    pair_says inc exc (if some cut then cut else if some inc then inc else [all_ips v]) [] v.
Proof.
  intros (Vi & Ve & L). set (base := if some inc then inc else [all_ips v]).
  assert (Vb : valid_list base) by (unfold base; destruct inc; [apply all_list_valid|exact Vi]).
  assert (Cb : forall x, of_family v x -> covered base x <-> inc = [] \/ covered inc x).
  { intros x F. unfold base. destruct inc as [|n inc]; cbn [some].
    - split; [auto|]. intros _. apply covered_all, F.
    - split; [auto|]. intros [X|X]; [discriminate X|exact X]. }
  assert (P1 : pair_says inc exc base exc v).
  { split; [exact Vb|]. split; [exact Ve|]. intros x F. unfold side_matches. rewrite (Cb x F). reflexivity. }
  assert (Nn : forall x, ~ covered [] x) by (intros x (n & [] & _)).
  destruct exc as [|e exc]; cbn [some].
  - exists []. split; [reflexivity|]. split; [exact P1|exact P1].
  - destruct (exclude_ok base (e :: exc) Vb Ve) as (cut & E & Vc & Sc). exists cut. split; [exact E|]. split; [exact P1|].
    assert (Ne : cut <> []).
    { destruct (L ltac:(discriminate)) as (x & I & X). intros ->. apply (Nn x). apply Sc. split; [|exact X].
      destruct I as [(Ei & F1 & F2)|I].
      - apply Cb; [split; assumption|left; exact Ei].
      - unfold base. destruct inc; [destruct (Nn x I)|exact I]. }
    destruct cut as [|c cut]; [congruence|]. cbn [some]. split; [exact Vc|]. split; [constructor|]. intros x F. rewrite Sc, (Cb x F). unfold side_matches.
    split; [tauto|]. intros X. split; [exact X|apply Nn].
Qed.
Lemma invert_side v inc exc a new : pair_says inc exc a [] v -> address_list_exclude [all_ips v] a true = Ok new -> pair_says inc exc [all_ips v] new v.
Proof.
  intros (Va & _ & S) E. destruct (exclude_ok [all_ips v] a (all_list_valid v) Va) as (r & Er & Vr & Sr). rewrite E in Er. apply CiscoProofs.ok_inj in Er. subst r.
  split; [apply all_list_valid|]. split; [exact Vr|]. intros x F. rewrite Sr, <- (S x F). pose proof (covered_all v x F) as A.
  assert (Nn : ~ covered [] x) by (intros (n & [] & _)). destruct (covered_dec a x) as [D|D]; tauto.
Qed.
Lemma mine_side v inc exc a e : pair_says inc exc a e v ->
  (forall n, In n (filter (fun n => ver_eqb (nver n) v) a) -> valid n /\ nver n = v) /\ (forall n, In n (filter (fun n => ver_eqb (nver n) v) e) -> valid n /\ nver n = v) /\
  forall x, of_family v x -> covered (filter (fun n => ver_eqb (nver n) v) a) x /\ ~ covered (filter (fun n => ver_eqb (nver n) v) e) x <-> side_matches inc exc x.
Proof.
  intros (Va & Ve & S). split; [intros n; apply mine_valid, Va|]. split; [intros n; apply mine_valid, Ve|]. intros x F. rewrite !covered_mine by exact F. apply S, F.
Qed.
Lemma calculate_spec v src src_ex dst dst_ex : ipt_side v src src_ex -> ipt_side v dst dst_ex ->
  exists s xs d xd, calculate_addresses v src src_ex dst dst_ex = Ok (s, xs, d, xd) /\
    (forall n, In n (s ++ xs ++ d ++ xd) -> valid n /\ nver n = v) /\
    (forall x, of_family v x -> covered s x /\ ~ covered xs x <-> side_matches src src_ex x) /\
    (forall x, of_family v x -> covered d x /\ ~ covered xd x <-> side_matches dst dst_ex x).
Proof.
  intros Ks Kd. destruct (first_side v src src_ex Ks) as (cs & Es & S1 & S2). destruct (first_side v dst dst_ex Kd) as (cd & Ed & D1 & D2).
  assert (Fin : forall a xa b xb, pair_says src src_ex a xa v -> pair_says dst dst_ex b xb v ->
    exists s xs d xd, Ok (filter (fun n => ver_eqb (nver n) v) a, filter (fun n => ver_eqb (nver n) v) xa, filter (fun n => ver_eqb (nver n) v) b, filter (fun n => ver_eqb (nver n) v) xb) = Ok (s, xs, d, xd) /\
    (forall n, In n (s ++ xs ++ d ++ xd) -> valid n /\ nver n = v) /\
    (forall x, of_family v x -> covered s x /\ ~ covered xs x <-> side_matches src src_ex x) /\
    (forall x, of_family v x -> covered d x /\ ~ covered xd x <-> side_matches dst dst_ex x)).
  { intros a xa b xb A B. apply mine_side in A, B. destruct A as (A1 & A2 & A3). destruct B as (B1 & B2 & B3). eexists _, _, _, _. split; [reflexivity|].
    split; [|split; assumption]. intros n I. rewrite !in_app_iff in I. destruct I as [I|[I|[I|I]]]; auto. }
  unfold calculate_addresses. rewrite Es. cbn [bind]. rewrite Ed. cbn [bind].
  set (cut := len1 cs * len1 cd <? len src_ex + len dst_ex + len1 src * len1 dst).
  set (a := if cut && some cs then cs else if some src then src else [all_ips v]). set (b := if cut && some cd then cd else if some dst then dst else [all_ips v]).
  set (xa := if cut then [] else src_ex). set (xb := if cut then [] else dst_ex).
  assert (A : pair_says src src_ex a xa v) by (unfold a, xa; destruct cut; [exact S2|exact S1]).
  assert (B : pair_says dst dst_ex b xb v) by (unfold b, xb; destruct cut; [exact D2|exact D1]).
  set (num := count_ver V4 a * count_ver V4 b + count_ver V6 a * count_ver V6 b).
  destruct (100 <? num); [|cbn [bind]; apply Fin; assumption].
  destruct (exclude_ok [all_ips v] a (all_list_valid v) (proj1 A)) as (na & Ena & _). destruct (exclude_ok [all_ips v] b (all_list_valid v) (proj1 B)) as (nb & Enb & _).
  rewrite Ena. cbn [bind]. rewrite Enb. cbn [bind].
  destruct ((len na <? len nb) && negb (some xa)) eqn:C1.
  - apply andb_true_iff in C1. destruct C1 as (_ & C1). assert (X : xa = []) by (destruct xa; [reflexivity|discriminate C1]). rewrite X in A.
    destruct (len na + len b <? num); cbn [bind]; [|rewrite <- X in A; apply Fin; assumption]. apply Fin; [|exact B]. eapply invert_side; [exact A|exact Ena].
  - destruct (negb (some xb)) eqn:C2; [|cbn [bind]; apply Fin; assumption]. assert (X : xb = []) by (destruct xb; [reflexivity|discriminate C2]). rewrite X in B.
    destruct (len nb + len a <? num); cbn [bind]; [|rewrite <- X in B; apply Fin; assumption]. apply Fin; [exact A|]. eapply invert_side; [exact B|exact Enb].
Qed.
