(** Address sets: the commands make the sets, and the conditions read them. *)
From Coq Require Import Lia ZifyBool ZifyNat.
From Verif Require ArubaProofs.
From Verif Require Import SpecIpset BaseFacts PyStrFacts IPFacts TextProofs CollapseProofs ExcludeProofs GenProofs IptProofs IptAddr GceProofs JuniperProofs CiscoProofs.
Local Open Scope string_scope.
Local Open Scope list_scope.
Local Open Scope Z_scope.

(** ** Names *)

Definition dir_ok (d : string) : Prop := d = "src" \/ d = "dst".
Definition dir_suffix (v : ver) (d : string) : string := match v with V4 => ("-" ++ d)%string | V6 => ("-" ++ d ++ "-v6")%string end.
Lemma ipset_name_eq v n d : dir_ok d -> ipset_name v n d = (name_start v n ++ dir_suffix v d)%string.
Proof.
  intros D. unfold ipset_name, name_start, dir_suffix, slice_to, slen. destruct v, D as [-> | ->].
  all: cbn [append String.length].
  all: match goal with |- context [if 31 <? ?e then _ else _] => destruct (Z.ltb_spec 31 e) as [L|L] end.
  all: try (rewrite substring_all by lia; reflexivity).
  all: match goal with |- context [if ?e <? 0 then _ else _] => change (e <? 0) with false end; cbv iota; reflexivity.
Qed.
Lemma la_app a b : list_ascii_of_string (a ++ b)%string = list_ascii_of_string a ++ list_ascii_of_string b.
Proof. induction a as [|c a IH]; cbn; [reflexivity|]. rewrite IH. reflexivity. Qed.
Lemma la_inj a b : list_ascii_of_string a = list_ascii_of_string b -> a = b.
Proof. intros E. rewrite <- (string_of_list_ascii_of_string a), E. apply string_of_list_ascii_of_string. Qed.
Lemma ipset_name_inj v n d v' n' d' : dir_ok d -> dir_ok d' -> ipset_name v n d = ipset_name v' n' d' -> v = v' /\ d = d' /\ name_start v n = name_start v' n'.
Proof.
  intros D D' E. rewrite !ipset_name_eq in E by assumption. apply (f_equal (fun s => rev (list_ascii_of_string s))) in E. rewrite !la_app, !rev_app_distr in E.
  destruct v, v', D as [-> | ->], D' as [-> | ->]; cbn in E; try discriminate E; injection E as E; (split; [reflexivity|]; split; [reflexivity|]);
    apply la_inj; rewrite <- (rev_involutive (list_ascii_of_string (name_start _ n))), E; apply rev_involutive.
Qed.
Lemma substring_ws f k s : forall_char f s = true -> forall_char f (substring 0 k s) = true.
Proof.
  destruct (substring_prefix k s) as (q & E). intros H. rewrite E, forall_char_app in H. apply andb_true_iff in H. apply H.
Qed.
Definition word (w : string) : Prop := split_ws w = [w].
Lemma ipset_name_word v n d : dir_ok d -> forall_char (fun c => negb (is_ws c)) n = true -> word (ipset_name v n d).
Proof.
  intros D W. rewrite ipset_name_eq by exact D. apply split_ws_word.
  - unfold no_ws. rewrite forall_char_app. unfold name_start. rewrite substring_ws by exact W. destruct v, D as [-> | ->]; reflexivity.
  - intros E. apply (f_equal String.length) in E. rewrite GenProofs.length_app in E. destruct v, D as [-> | ->]; cbn in E; lia.
Qed.
Lemma ipset_name_ok v n d : dir_ok d -> n <> "" -> String.get 0 n <> Some "-"%char -> ks_name_ok (ipset_name v n d) = true.
Proof.
  intros D N G. rewrite ipset_name_eq by exact D. unfold ks_name_ok. apply andb_true_iff. split.
  - apply Nat.leb_le. rewrite GenProofs.length_app. unfold name_start. pose proof (substring_length (match v with V4 => 27 | V6 => 24 end) n) as S. destruct v, D as [-> | ->]; cbn [dir_suffix append String.length]; lia.
  - destruct n as [|c n]; [congruence|]. assert (E : exists r, name_start v (String c n) = String c r) by (destruct v; eexists; reflexivity). destruct E as (r & ->).
    cbn [append String.get] in *. destruct (Ascii.eqb_spec c "-") as [->|X]; [congruence|reflexivity].
Qed.

(** ** One set *)

Lemma prefix_split n : valid n -> word (prefixlen_text n).
Proof. intros V. unfold word, prefixlen_text. apply ArubaProofs.prefix_word, V. Qed.
Lemma dec_split n : 0 <= n -> word (dec n).
Proof. intros H. apply split_ws_dec, H. Qed.
Lemma text_disjoint a b : valid a -> valid b -> disjoint a b -> prefixlen_text a <> prefixlen_text b.
Proof.
  intros Va Vb D E. assert (C : covers a (nver a, naddr a)). { split; [reflexivity|]. cbn [snd]. unfold size. destruct Va as (L & _). pose proof (Z.pow_pos_nonneg 2 (width (nver a) - nlen a)). lia. }
  assert (N : on_net (nver a, naddr a)). { unfold on_net. cbn [fst snd]. destruct Va as (L & A & _). lia. }
  apply (D _ C). apply (range_text b _ Vb N). rewrite <- E. apply (range_text a _ Va N), C.
Qed.
Lemma texts_nodup l : valid_list l -> pairwise_disjoint l -> NoDup (map prefixlen_text l).
Proof.
  intros V P. induction P as [|a l F P IH]; [constructor|]. inversion V as [|x y Va Vl]; subst. cbn [map]. constructor; [|apply IH, Vl].
  intros I. apply in_map_iff in I. destruct I as (b & E & I). unfold valid_list in Vl. rewrite Forall_forall in F, Vl. apply (text_disjoint a b Va (Vl b I) (F b I)). congruence.
Qed.
Lemma holds v n : valid n -> nver n = v -> 1 <= nlen n -> can_hold (set_family v) (prefixlen_text n) = true.
Proof.
  intros V E L. unfold can_hold. rewrite prefix_before, E, (prefix_length_text n V). destruct V as (Hl & Ha & _). rewrite E in *.
  destruct v; cbn [set_family]; cbn -[ip_value addr_text width Z.leb]; rewrite addr_text_value by exact Ha; lia.
Qed.
Lemma pow_bit n : 0 <= n -> n < 2 ^ bit_length n.
Proof.
  intros H. unfold bit_length. destruct (Z.eqb_spec n 0); [subst; cbn; lia|]. pose proof (Z.log2_spec n ltac:(lia)) as S. rewrite Z.add_1_r. apply S.
Qed.

(** A set as it should be. *)
Record aset := mkAset { as_ver : ver; as_name : string; as_nets : list net }.
Definition kset_of (s : aset) : kset :=
  mkKset (as_name s) (set_family (as_ver s)) (2 ^ bit_length (Z.of_nat (List.length (as_nets s)))) (map prefixlen_text (as_nets s)).
Definition aset_ok (s : aset) : Prop :=
  word (as_name s) /\ ks_name_ok (as_name s) = true /\ NoDup (map prefixlen_text (as_nets s)) /\
  forall n, In n (as_nets s) -> valid n /\ nver n = as_ver s /\ 1 <= nlen n.

Lemma ks_add_last again n a fam max M : forall S, ~ In n (map ks_name S) -> ~ In a M -> Z.of_nat (List.length M) < max -> can_hold fam a = true ->
  ks_add again n a (S ++ [mkKset n fam max M]) = Some (S ++ [mkKset n fam max (M ++ [a])]).
Proof.
  induction S as [|s S IH]; intros N A L H.
  - cbn [app ks_add ks_name ks_members ks_max ks_family]. rewrite String.eqb_refl.
    replace (existsb (String.eqb a) M) with false; [rewrite H, (proj2 (Z.ltb_lt _ _) L); reflexivity|].
    symmetry. apply not_true_is_false. intros X. apply existsb_exists in X. destruct X as (y & I & E). apply String.eqb_eq in E. subst y. exact (A I).
  - cbn [app ks_add]. replace (String.eqb (ks_name s) n) with false.
    + rewrite IH; [reflexivity|intros I; apply N; right; exact I|exact A|exact L|exact H].
    + symmetry. apply String.eqb_neq. intros E. apply N. left. exact E.
Qed.
Lemma ks_run_app S a b : ks_run S (a ++ b) = match ks_run S a with Some S' => ks_run S' b | None => None end.
Proof. revert S. induction a as [|l a IH]; intros S; cbn [app ks_run]; [reflexivity|]. destruct (ks_step S l); [apply IH|reflexivity]. Qed.
Definition mark (ex : bool) : string := if ex then " -exist" else "".
Definition mark_words (ex : bool) : list string := if ex then ["-exist"] else [].
Lemma not_mark n : ks_name_ok n = true -> String.eqb n "-exist" = false.
Proof. intros H. apply String.eqb_neq. intros ->. vm_compute in H. discriminate H. Qed.
Lemma join_cons2 a b l : join " " (a :: b :: l) = (a ++ " " ++ join " " (b :: l))%string.
Proof. reflexivity. Qed.
Lemma add_words ex n a : word n -> word a -> split_ws ("add" ++ mark ex ++ " " ++ n ++ " " ++ a)%string = "add" :: mark_words ex ++ [n; a].
Proof.
  intros Wn Wa. replace ("add" ++ mark ex ++ " " ++ n ++ " " ++ a)%string with (join " " ("add" :: mark_words ex ++ [n; a])) by (destruct ex; reflexivity).
  rewrite CiscoProofs.split_ws_join. unfold word in *. destruct ex; cbn [mark_words app map concat]; rewrite Wn, Wa; reflexivity.
Qed.
Lemma create_words ex n fam h : word n -> word fam -> word h ->
  split_ws ("create" ++ mark ex ++ " " ++ n ++ " hash:net family " ++ fam ++ " hashsize " ++ h ++ " maxelem " ++ h)%string
  = "create" :: mark_words ex ++ [n; "hash:net"; "family"; fam; "hashsize"; h; "maxelem"; h].
Proof.
  intros Wn Wf Wh.
  replace ("create" ++ mark ex ++ " " ++ n ++ " hash:net family " ++ fam ++ " hashsize " ++ h ++ " maxelem " ++ h)%string
    with (join " " ("create" :: mark_words ex ++ [n; "hash:net"; "family"; fam; "hashsize"; h; "maxelem"; h])) by (destruct ex; reflexivity).
  rewrite CiscoProofs.split_ws_join. unfold word in *. destruct ex; cbn [mark_words app map concat]; rewrite Wn, Wf, Wh; reflexivity.
Qed.
Lemma adds_run ex n fam max : word n -> ks_name_ok n = true -> forall L S M, ~ In n (map ks_name S) -> NoDup (M ++ map prefixlen_text L) ->
  Z.of_nat (List.length M) + Z.of_nat (List.length L) <= max -> (forall a, In a L -> valid a /\ can_hold fam (prefixlen_text a) = true) ->
  ks_run (S ++ [mkKset n fam max M]) (map (fun a => "add" ++ mark ex ++ " " ++ n ++ " " ++ prefixlen_text a)%string L)
  = Some (S ++ [mkKset n fam max (M ++ map prefixlen_text L)]).
Proof.
  intros Wn On. induction L as [|a L IH]; intros S M N D Z H; cbn [map ks_run]; [rewrite app_nil_r; reflexivity|].
  destruct (H a (or_introl eq_refl)) as (Va & Ha). unfold ks_step at 1. rewrite add_words by (assumption || apply prefix_split, Va).
  cbn [List.length map] in Z, D.
  assert (A : ks_add ex n (prefixlen_text a) (S ++ [mkKset n fam max M]) = Some (S ++ [mkKset n fam max (M ++ [prefixlen_text a])])).
  { apply ks_add_last; [exact N| |lia|exact Ha]. apply NoDup_remove_2 in D. intros I. apply D, in_or_app. left. exact I. }
  replace (M ++ prefixlen_text a :: map prefixlen_text L) with ((M ++ [prefixlen_text a]) ++ map prefixlen_text L) in * by (rewrite <- app_assoc; reflexivity).
  pose proof (not_mark n On) as Nm. destruct ex; cbn [mark_words app tl]; rewrite ?String.eqb_refl, ?Nm.
  all: change (String.eqb "add" "#") with false; change (String.eqb "add" "create") with false; change (String.eqb "add" "add") with true; change (String.eqb "-exist" "-exist") with true; cbv iota; cbn [tl].
  all: rewrite A; apply IH; [exact N|exact D|rewrite app_length; cbn [List.length]; lia|intros b I; apply H; right; exact I].
Qed.
Lemma set_run ex s S : aset_ok s -> ~ In (as_name s) (map ks_name S) ->
  ks_run S (set_lines ex (as_ver s) (Some (as_name s, as_nets s))) = Some (S ++ [kset_of s]).
Proof.
  destruct s as [v n L]. intros (W & O & D & H) N. cbn [as_ver as_name as_nets] in *. unfold set_lines. set (k := Z.of_nat (List.length L)).
  assert (P : 0 <= 2 ^ bit_length k) by (apply Z.pow_nonneg; lia).
  change (if ex then " -exist" else "") with (mark ex). cbn [ks_run]. unfold ks_step at 1. rewrite create_words; [|exact W|destruct v; reflexivity|apply dec_split, P].
  assert (C : ks_create ex [n; "hash:net"; "family"; set_family v; "hashsize"; dec (2 ^ bit_length k); "maxelem"; dec (2 ^ bit_length k)] S
    = Some (S ++ [mkKset n (set_family v) (2 ^ bit_length k) []])).
  { unfold ks_create. rewrite !String.eqb_refl, O. cbn [andb]. replace (String.eqb (set_family v) "inet" || String.eqb (set_family v) "inet6") with true by (destruct v; reflexivity).
    rewrite dec_value by exact P. replace (existsb (fun s => String.eqb (ks_name s) n) S) with false; [reflexivity|].
    symmetry. apply not_true_is_false. intros X. apply existsb_exists in X. destruct X as (y & I & E). apply String.eqb_eq in E. apply N. rewrite <- E. apply in_map, I. }
  assert (R : ks_run (S ++ [mkKset n (set_family v) (2 ^ bit_length k) []]) (map (fun a => "add" ++ mark ex ++ " " ++ n ++ " " ++ prefixlen_text a)%string L)
    = Some (S ++ [kset_of (mkAset v n L)])).
  { rewrite adds_run; [reflexivity|exact W|exact O|exact N|exact D|pose proof (pow_bit k ltac:(lia)); cbn [List.length]; lia|].
    intros a I. destruct (H a I) as (Va & Ea & La). split; [exact Va|apply holds; assumption]. }
  pose proof (not_mark n O) as Nm. destruct ex; cbn [mark_words app tl]; rewrite ?Nm.
  all: change (String.eqb "create" "#") with false; change (String.eqb "create" "create") with true; change (String.eqb "-exist" "-exist") with true; cbv iota; cbn [tl].
  all: rewrite C; exact R.
Qed.

(** ** One side of a term *)

Lemma sorted_disjoint l : StronglySorted before l -> pairwise_disjoint l.
Proof.
  induction 1 as [|a l S IH F]; [constructor|]. constructor; [|exact IH]. rewrite Forall_forall in *. intros b I. apply before_disjoint, F, I.
Qed.
Lemma filter_disjoint f l : pairwise_disjoint l -> pairwise_disjoint (filter f l).
Proof.
  induction 1 as [|a l F P IH]; [constructor|]. cbn [filter]. destruct (f a); [|exact IH]. constructor; [|exact IH].
  rewrite Forall_forall in *. intros b I. apply filter_In in I. apply F, I.
Qed.
Lemma several_positive v l : (forall n, In n l -> valid n /\ nver n = v) -> pairwise_disjoint l -> (1 < List.length l)%nat -> forall n, In n l -> 1 <= nlen n.
Proof.
  intros V P L n I. destruct (Z.le_gt_cases 1 (nlen n)) as [X|X]; [exact X|]. exfalso.
  assert (O : exists m, In m l /\ (disjoint n m \/ disjoint m n)).
  { clear V X. revert I L. induction P as [|a l F P IH]; intros I L; [destruct I|]. rewrite Forall_forall in F. destruct I as [->|I].
    - destruct l as [|b l]; [cbn in L; lia|]. exists b. split; [right; left; reflexivity|left; apply F; left; reflexivity].
    - exists a. split; [left; reflexivity|right; apply F, I]. }
  destruct O as (m & Im & D). destruct (V n I) as ((Ln & An & Dn) & En), (V m Im) as ((Lm & Am & _) & Em).
  assert (nlen n = 0) by lia. assert (Cn : covers n (v, naddr m)).
  { split; [exact En|]. cbn [snd]. unfold size in *. rewrite En, Em in *. replace (nlen n) with 0 in * by lia. rewrite Z.sub_0_r in *. destruct Dn as (q & E).
    assert (q = 0) by (destruct (Z.lt_trichotomy q 0) as [Q|[Q|Q]]; [|exact Q|]; exfalso; nia). subst q. lia. }
  assert (Cm : covers m (v, naddr m)). { split; [exact Em|]. cbn [snd]. unfold size. pose proof (Z.pow_pos_nonneg 2 (width (nver m) - nlen m)). lia. }
  destruct D as [D|D]; [exact (D _ Cn Cm)|exact (D _ Cm Cn)].
Qed.
(** What a side gives: the addresses of its rules, and the set if there is one. *)
Definition side_good (v : ver) (name dir : string) (inc exc : list net) (r : list net * option (string * list net)) : Prop :=
  exists l, (forall n, In n l -> valid n /\ nver n = v) /\ (forall x, of_family v x -> (covered l x <-> side_matches inc exc x)) /\
    ((r = (l, None) /\ forall a b, In a l -> In b l -> a = b) \/
     (r = ([all_ips v], Some (ipset_name v name dir, l)) /\ NoDup (map prefixlen_text l) /\ forall n, In n l -> 1 <= nlen n)).
Lemma set_side_spec v name dir inc exc : set_lists_ok inc exc -> exists r, set_side v name dir inc exc = Ok r /\ side_good v name dir inc exc r.
Proof.
  intros (Vi & Ve & P). unfold set_side. set (base := if some inc then inc else [all_ips v]). set (mine := filter (fun n => ver_eqb (nver n) v)).
  assert (Vb : valid_list base) by (unfold base; destruct inc; [apply all_list_valid|exact Vi]).
  assert (Pb : pairwise_disjoint base) by (unfold base; destruct inc; [repeat constructor|exact P]).
  assert (Cb : forall x, of_family v x -> covered base x <-> inc = [] \/ covered inc x).
  { intros x F. unfold base. destruct inc as [|n inc']; cbn [some].
    - split; [auto|]. intros _. apply covered_all, F.
    - split; [auto|]. intros [X|X]; [discriminate X|exact X]. }
  assert (Nn : forall x, ~ covered [] x) by (intros x (n & [] & _)).
  assert (R : exists l, (if some exc then address_list_exclude (mine base) (mine exc) true else Ok (mine base)) = Ok l /\
    (forall n, In n l -> valid n /\ nver n = v) /\ pairwise_disjoint l /\ forall x, of_family v x -> (covered l x <-> side_matches inc exc x)).
  { destruct exc as [|e exc']; cbn [some].
    - exists (mine base). split; [reflexivity|]. split; [intros n; apply mine_valid, Vb|]. split; [apply filter_disjoint, Pb|].
      intros x F. unfold mine. rewrite covered_mine by exact F. rewrite (Cb x F). unfold side_matches. split; [intros X; split; [exact X|apply Nn]|intros (X & _); exact X].
    - assert (Vm : forall l, valid_list l -> valid_list (mine l)).
      { intros l V. apply Forall_forall. intros n I. apply (mine_valid v l n V I). }
      destruct (address_list_exclude_spec (mine base) (mine (e :: exc')) (Vm _ Vb) (Vm _ Ve)) as (r & E & Vr & (Sr & _) & Cr).
      exists r. split; [exact E|]. split.
      + intros n I. assert (V : valid n) by exact (proj1 (Forall_forall _ _) Vr n I). split; [exact V|].
        assert (C : covered r (nver n, naddr n)). { exists n. split; [exact I|]. split; [reflexivity|]. cbn [snd]. unfold size. destruct V as (L & _). pose proof (Z.pow_pos_nonneg 2 (width (nver n) - nlen n)). lia. }
        apply Cr in C. destruct C as ((m & Im & (Cm & _)) & _). apply (mine_valid v base m Vb) in Im. cbn [fst] in Cm. destruct Im. congruence.
      + split; [apply sorted_disjoint, Sr|]. intros x F. rewrite Cr. unfold mine. rewrite !covered_mine by exact F. rewrite (Cb x F). reflexivity. }
  destruct R as (l & -> & Hl & Pl & Cl). cbn [bind]. destruct (Z.ltb_spec 1 (Z.of_nat (List.length l))) as [L|L].
  - eexists. split; [reflexivity|]. exists l. split; [exact Hl|]. split; [exact Cl|]. right. split; [reflexivity|]. split.
    + apply texts_nodup; [|exact Pl]. apply Forall_forall. intros n I. apply (Hl n I).
    + apply (several_positive v l Hl Pl). lia.
  - eexists. split; [reflexivity|]. exists l. split; [exact Hl|]. split; [exact Cl|]. left. split; [reflexivity|].
    destruct l as [|a [|b l]]; [intros a b []|intros x y [->|[]] [->|[]]; reflexivity|cbn in L; lia].
Qed.
Lemma ipset_name_fits v name dir : dir_ok dir -> (String.length (ipset_name v name dir) <= 31)%nat.
Proof.
  intros D. rewrite ipset_name_eq by exact D. rewrite GenProofs.length_app. unfold name_start. pose proof (substring_length (match v with V4 => 27 | V6 => 24 end) name) as S.
  destruct v, D as [-> | ->]; cbn [dir_suffix append String.length]; lia.
Qed.
