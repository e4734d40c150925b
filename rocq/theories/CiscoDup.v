(** Proofs about the removal of duplicate network groups. *)
From Verif Require Import SpecCiscoGroup BaseFacts PyStrFacts GenProofs CiscoProofs.
Require Import Lia ZifyBool ZifyNat.
Local Open Scope string_scope.
Local Open Scope list_scope.
Local Open Scope Z_scope.

(** ** Heads of lines *)

Lemma starts_char a x s : starts_with (String a x) s = true -> exists r, s = String a r.
Proof.
  destruct s as [|c s]; unfold starts_with; cbn [String.prefix]; [discriminate|]. destruct (ascii_dec a c) as [->|]; [intros _; eexists; reflexivity|discriminate].
Qed.
Lemma starts_excl a x b y s : a <> b -> starts_with (String a x) s = true -> starts_with (String b y) s = false.
Proof.
  intros N H. destruct (starts_char _ _ _ H) as (r & ->). destruct (starts_with (String b y) (String a r)) eqn:E; [|reflexivity].
  destruct (starts_char _ _ _ E) as (r' & X). injection X as X _. congruence.
Qed.
Lemma starts_blank a x s : a <> " "%char -> starts_with (String a x) (" " ++ s)%string = false.
Proof.
  intros N. destruct (starts_with (String a x) (" " ++ s)%string) eqn:E; [|reflexivity]. destruct (starts_char _ _ _ E) as (r & X). injection X as X _. congruence.
Qed.
Lemma exit_excl line : starts_with "exit" line = true -> starts_with "object-group" line = false /\ acl_head line = None /\ is_empty line = false.
Proof.
  intros H. split; [apply (starts_excl "e" "xit"); [discriminate|exact H]|]. split.
  - unfold acl_head. rewrite !(starts_excl "e" "xit" "i" _ line) by (discriminate || exact H). reflexivity.
  - destruct (starts_char _ _ _ H) as (r & ->). reflexivity.
Qed.
Lemma object_excl line : starts_with "object-group" line = true -> starts_with "exit" line = false /\ acl_head line = None /\ is_empty line = false.
Proof.
  intros H. split; [apply (starts_excl "o" "bject-group"); [discriminate|exact H]|]. split.
  - unfold acl_head. rewrite !(starts_excl "o" "bject-group" "i" _ line) by (discriminate || exact H). reflexivity.
  - destruct (starts_char _ _ _ H) as (r & ->). reflexivity.
Qed.
Lemma acl_excl line f : acl_head line = Some f -> starts_with "exit" line = false /\ starts_with "object-group" line = false /\ is_empty line = false.
Proof.
  intros H. split; [|split].
  - destruct (starts_with "exit" line) eqn:E; [|reflexivity]. apply exit_excl in E. destruct E as (_ & E & _). congruence.
  - destruct (starts_with "object-group" line) eqn:E; [|reflexivity]. apply object_excl in E. destruct E as (_ & E & _). congruence.
  - destruct line; [discriminate H|reflexivity].
Qed.
Lemma group_head_inv line m : group_head line = Some m ->
  (exists f n, m = MGroup f n [] /\ split_ws line = ["object-group"; "network"; f; n] /\ In f ["ipv4"; "ipv6"]) \/
  (exists n, m = MPorts n [] /\ split_ws line = ["object-group"; "port"; n]).
Proof.
  unfold group_head. destruct (split_ws line) as [|w [|k [|a [|b [|? ?]]]]] eqn:E; try discriminate.
  - destruct (String.eqb w "object-group") eqn:Ew; [|discriminate]. destruct (String.eqb k "port") eqn:Ek; [|discriminate]. cbn [andb]. intros H. apply String.eqb_eq in Ew, Ek. subst.
    right. exists a. split; [congruence|reflexivity].
  - destruct (String.eqb w "object-group") eqn:Ew; [|discriminate]. destruct (String.eqb k "network") eqn:Ek; [|discriminate]. cbn [andb].
    destruct (str_in a ["ipv4"; "ipv6"]) eqn:Ea; [|discriminate]. intros H. apply String.eqb_eq in Ew, Ek. subst.
    left. exists a, b. split; [congruence|]. split; [reflexivity|]. apply str_in_spec in Ea. exact Ea.
Qed.

(** ** Finding the duplicates *)

Definition dup_item (st : list (string * string) * list (string * string)) (g : string * list string) : list (string * string) * list (string * string) :=
  let key := join lf (snd g) in
  match assoc key (fst st) with
  | Some first => (fst st, (fst g, first) :: snd st)
  | None => ((key, fst g) :: fst st, snd st)
  end.
Definition agrees (af : string) (m : cmode) (st : dup_state) : Prop :=
  match m with
  | MGroup f n ls => if String.eqb f af then d_in st = true /\ d_name st = n /\ d_lines st = ls else d_in st = false /\ d_lines st = []
  | _ => d_in st = false /\ d_lines st = []
  end.
Definition dup_out (st : dup_state) : list (string * string) * list (string * string) := (d_groups st, d_dups st).
Lemma dup_run af lines : forall m items st, read_config m lines = Some items -> agrees af m st ->
  dup_out (fold_left (dup_step af) lines st) = fold_left dup_item (groups_of af items) (dup_out st).
Proof.
  assert (out : forall line st, d_in st = false -> starts_with "object-group" line = false -> dup_step af st line = st).
  { intros line st I O. unfold dup_step. rewrite O, I. destruct (starts_with "exit" line); reflexivity. }
  induction lines as [|line lines IH]; intros m items st H A.
  - cbn [read_config] in H. destruct m; try discriminate H; injection H as <-; reflexivity.
  - cbn [read_config] in H. cbn [fold_left]. destruct m as [|f n ls|n ls|f h rs].
    + destruct A as (A1 & A2). destruct (is_empty line) eqn:Ee.
      { rewrite out; [apply (IH MOut); [exact H|split; assumption]|exact A1|]. destruct line; [reflexivity|discriminate Ee]. }
      destruct (starts_with "object-group" line) eqn:Eo.
      * destruct (group_head line) as [m|] eqn:Eg; [|discriminate H]. unfold dup_step at 2. rewrite Eo.
        destruct (group_head_inv _ _ Eg) as [(f & n & -> & Ew & If)|(n & -> & Ew)]; rewrite Ew.
        -- rewrite A1. cbn [orb]. rewrite String.eqb_refl. cbn [andb]. rewrite (IH _ items _ H); [reflexivity|]. unfold agrees. destruct (String.eqb f af); cbn [d_in d_name d_lines]; auto.
        -- apply (IH _ _ _ H). split; assumption.
      * destruct (acl_head line) as [f|] eqn:Ea.
        -- rewrite out by assumption. apply (IH _ _ _ H). split; assumption.
        -- destruct (read_config MOut lines) as [its|] eqn:Er; [|discriminate H]. injection H as <-. rewrite out by assumption. apply (IH _ _ _ Er). split; assumption.
    + destruct (starts_with "exit" line) eqn:Ex.
      * destruct (read_config MOut lines) as [its|] eqn:Er; [|discriminate H]. injection H as <-. unfold groups_of. cbn [flat_map]. fold (groups_of af its).
        destruct (exit_excl _ Ex) as (Eo & _ & _). unfold agrees in A. unfold dup_step at 2. rewrite Eo, Ex. destruct (String.eqb f af).
        -- destruct A as (A1 & A2 & A3). rewrite A1, A2, A3. cbn [andb app fold_left]. unfold dup_item at 2. cbn [fst snd dup_out].
           destruct (assoc (join lf ls) (d_groups st)) as [first|] eqn:Ek; (rewrite (IH MOut its _ Er); [|split; reflexivity]); unfold dup_out at 1; cbn [d_groups d_dups]; reflexivity.
        -- destruct A as (A1 & A2). rewrite A1. cbn [andb app]. apply (IH _ _ _ Er). split; assumption.
      * destruct (starts_with "object-group" line || is_empty line) eqn:Eo; [discriminate H|]. apply orb_false_iff in Eo. destruct Eo as (Eo & Ee).
        destruct (acl_head line) eqn:Ea; [discriminate H|]. unfold agrees in A. destruct (String.eqb f af) eqn:Ef.
        -- destruct A as (A1 & A2 & A3). rewrite (IH _ items (dup_step af st line) H); unfold dup_step; rewrite Eo, Ex; cbn [andb]; rewrite A1; [reflexivity|].
           unfold agrees. rewrite Ef. cbn [d_in d_name d_lines]. rewrite A3. auto.
        -- destruct A as (A1 & A2). rewrite out by assumption. apply (IH _ _ _ H). unfold agrees. rewrite Ef. auto.
    + destruct A as (A1 & A2). destruct (starts_with "exit" line) eqn:Ex.
      * destruct (read_config MOut lines) as [its|] eqn:Er; [|discriminate H]. injection H as <-. rewrite out; [|exact A1|apply (exit_excl _ Ex)]. apply (IH _ _ _ Er). split; assumption.
      * destruct (starts_with "object-group" line || is_empty line) eqn:Eo; [discriminate H|]. apply orb_false_iff in Eo. destruct Eo as (Eo & Ee).
        destruct (acl_head line) eqn:Ea; [discriminate H|]. rewrite out by assumption. apply (IH _ _ _ H). split; assumption.
    + destruct A as (A1 & A2). destruct (starts_with "exit" line) eqn:Ex.
      * destruct (read_config MOut lines) as [its|] eqn:Er; [|discriminate H]. injection H as <-. rewrite out; [|exact A1|apply (exit_excl _ Ex)]. apply (IH _ _ _ Er). split; assumption.
      * destruct (starts_with "object-group" line) eqn:Eo; [discriminate H|]. rewrite out by assumption. destruct (acl_head line) as [f'|] eqn:Ea.
        -- destruct (read_config (MAcl f' line []) lines) as [its|] eqn:Er; [|discriminate H]. injection H as <-. apply (IH _ _ _ Er). split; assumption.
        -- destruct (split_ws line); apply (IH _ _ _ H); split; assumption.
Qed.

(** ** Removing groups *)

Definition kept (af : string) (names : list string) (i : citem) : bool :=
  match i with CGroup f n _ => negb (String.eqb f af && str_in n names) | _ => true end.
Lemma remove_run af names lines :
  (forall m items, read_config m lines = Some items ->
     match m with
     | MGroup f n ls => if String.eqb f af then if str_in n names then read_config MOut (remove_lines af names true true lines) = Some (filter (kept af names) items)
                                                 else read_config m (remove_lines af names true false lines) = Some (filter (kept af names) items)
                        else read_config m (remove_lines af names false false lines) = Some (filter (kept af names) items)
     | _ => read_config m (remove_lines af names false false lines) = Some (filter (kept af names) items)
     end).
Proof.
  induction lines as [|line lines IH]; intros m items H.
  - cbn [read_config] in H. destruct m; try discriminate H; injection H as <-; reflexivity.
  - cbn [read_config] in H. destruct m as [|f n ls|n ls|f h rs].
    + destruct (is_empty line) eqn:Ee.
      { destruct line; [|discriminate Ee]. cbn [remove_lines starts_with String.prefix andb]. cbn [read_config is_empty]. exact (IH MOut items H). }
      destruct (starts_with "object-group" line) eqn:Eo.
      * destruct (group_head line) as [m|] eqn:Eg; [|discriminate H]. cbn [remove_lines]. rewrite Eo.
        destruct (group_head_inv _ _ Eg) as [(f & n & -> & Ew & If)|(n & -> & Ew)]; rewrite Ew.
        -- rewrite String.eqb_refl. cbn [andb]. specialize (IH _ _ H). cbn beta iota in IH. destruct (String.eqb f af).
           ++ cbn [orb]. destruct (str_in n names); [exact IH|]. cbn [read_config]. rewrite Ee, Eo, Eg. exact IH.
           ++ cbn [read_config]. rewrite Ee, Eo, Eg. exact IH.
        -- cbn [read_config]. rewrite Ee, Eo, Eg. exact (IH _ _ H).
      * cbn [remove_lines]. rewrite Eo, andb_false_r. cbn [read_config]. rewrite Ee, Eo. destruct (acl_head line) as [f|] eqn:Ea; [exact (IH _ _ H)|].
        destruct (read_config MOut lines) as [its|] eqn:Er; [|discriminate H]. injection H as <-. rewrite (IH _ _ Er). reflexivity.
    + destruct (starts_with "exit" line) eqn:Ex.
      * destruct (read_config MOut lines) as [its|] eqn:Er; [|discriminate H]. injection H as <-. destruct (exit_excl _ Ex) as (Eo & _ & _). pose proof (IH _ _ Er) as IHo. cbn [remove_lines]. rewrite Eo, Ex. cbn [andb filter kept].
        destruct (String.eqb f af) eqn:Ef; cbn [andb negb].
        -- destruct (str_in n names); cbn [negb]; [exact IHo|]. cbn [read_config]. rewrite Ex, IHo. reflexivity.
        -- cbn [read_config]. rewrite Ex, IHo. reflexivity.
      * destruct (starts_with "object-group" line || is_empty line) eqn:Eo; [discriminate H|]. pose proof Eo as Eo'. apply orb_false_iff in Eo'. destruct Eo' as (Eo' & Ee).
        destruct (acl_head line) eqn:Ea; [discriminate H|]. specialize (IH _ _ H). cbn beta iota in IH. cbn [remove_lines]. rewrite Eo', Ex. cbn [andb].
        destruct (String.eqb f af); [destruct (str_in n names); [exact IH|]|]; cbn [read_config]; rewrite Ex, Eo, Ea; exact IH.
    + destruct (starts_with "exit" line) eqn:Ex.
      * destruct (read_config MOut lines) as [its|] eqn:Er; [|discriminate H]. injection H as <-. destruct (exit_excl _ Ex) as (Eo & _ & _). cbn [remove_lines]. rewrite Eo, Ex. cbn [andb read_config]. rewrite Ex, (IH _ _ Er). reflexivity.
      * destruct (starts_with "object-group" line || is_empty line) eqn:Eo; [discriminate H|]. pose proof Eo as Eo'. apply orb_false_iff in Eo'. destruct Eo' as (Eo' & Ee).
        destruct (acl_head line) eqn:Ea; [discriminate H|]. cbn [remove_lines]. rewrite Eo', Ex. cbn [andb read_config]. rewrite Ex, Eo, Ea. exact (IH _ _ H).
    + destruct (starts_with "exit" line) eqn:Ex.
      * destruct (read_config MOut lines) as [its|] eqn:Er; [|discriminate H]. injection H as <-. destruct (exit_excl _ Ex) as (Eo & _ & _). cbn [remove_lines]. rewrite Eo, Ex. cbn [andb read_config]. rewrite Ex, (IH _ _ Er). reflexivity.
      * destruct (starts_with "object-group" line) eqn:Eo; [discriminate H|]. cbn [remove_lines]. rewrite Eo, Ex. cbn [andb read_config]. rewrite Ex, Eo. destruct (acl_head line) as [f'|] eqn:Ea.
        -- destruct (read_config (MAcl f' line []) lines) as [its|] eqn:Er; [|discriminate H]. injection H as <-. rewrite (IH _ _ Er). reflexivity.
        -- destruct (split_ws line); exact (IH _ _ H).
Qed.

(** ** Replacing references *)

Lemma starts_shorter a b : forall s, starts_with (a ++ b)%string s = true -> starts_with a s = true.
Proof.
  unfold starts_with. induction a as [|c a IH]; intros s H; [destruct s; reflexivity|]. destruct s as [|d s]; [discriminate H|]. cbn [append String.prefix] in *.
  destruct (ascii_dec c d); [apply IH, H|discriminate H].
Qed.
Definition known_head (line : string) : Prop := starts_with "ip access-list " line = true -> starts_with "ip access-list extended " line = true.
Lemma heads_agree line : known_head line ->
  starts_with "ip access-list extended " line || starts_with "ipv4 access-list " line = (starts_with "ip access-list " line || starts_with "ipv4 access-list " line).
Proof.
  intros K. f_equal. destruct (starts_with "ip access-list extended " line) eqn:E; symmetry.
  - exact (starts_shorter "ip access-list " "extended " line E).
  - destruct (starts_with "ip access-list " line) eqn:F; [|reflexivity]. specialize (K F). congruence.
Qed.
Definition good_word (w : string) : Prop := split_ws w = [w].
Lemma good_word_no_ws w : no_ws w -> w <> "" -> good_word w.
Proof. apply split_ws_word. Qed.
Lemma split_words_good line : Forall good_word (split_ws line).
Proof. apply Forall_forall. intros w I. apply split_ws_words in I. apply good_word_no_ws; apply I. Qed.
Definition subst_item (af : string) (g : list (string * string)) (i : citem) : citem :=
  match i with CAcl f h rs => if String.eqb f af then CAcl f h (map (replace_fields g false) rs) else i | _ => i end.
Definition subst_mode (af : string) (g : list (string * string)) (m : cmode) : cmode :=
  match m with MAcl f h rs => if String.eqb f af then MAcl f h (map (replace_fields g false) rs) else m | _ => m end.
Lemma replace_good g : (forall x, In x g -> good_word (snd x)) -> forall ws b, Forall good_word ws -> Forall good_word (replace_fields g b ws).
Proof.
  intros G. induction ws as [|w ws IH]; intros b F; [constructor|]. inversion F as [|? ? F1 F2]; subst. cbn [replace_fields]. constructor; [|apply IH, F2].
  destruct b; [|exact F1]. destruct (assoc w g) as [f|] eqn:E; [|exact F1]. apply assoc_in in E. exact (G _ E).
Qed.
Lemma split_good_join ws : Forall good_word ws -> split_ws (join " " ws) = ws.
Proof.
  intros F. rewrite split_ws_join. induction F as [|w ws H F IH]; [reflexivity|]. cbn [map concat]. rewrite H, IH. reflexivity.
Qed.
Definition inside_of (m : cmode) : string := match m with MAcl f _ _ => f | _ => "" end.
Lemma acl_head_fam line f : acl_head line = Some f -> In f ["ipv4"; "ipv6"].
Proof.
  unfold acl_head. destruct (_ || _); [injection 1 as <-; left; reflexivity|]. destruct (starts_with _ line); [injection 1 as <-; right; left; reflexivity|discriminate].
Qed.
Lemma replace_run af g lines : In af ["ipv4"; "ipv6"] -> (forall x, In x g -> good_word (snd x)) -> Forall known_head lines -> forall m items, read_config m lines = Some items ->
  read_config (subst_mode af g m) (replace_lines af g (inside_of m) lines) = Some (map (subst_item af g) items).
Proof.
  intros Iaf G. assert (Naf : String.eqb af "" = false) by (destruct Iaf as [<-|[<-|[]]]; reflexivity).
  assert (step : forall line inside rest, known_head line -> acl_head line = None -> starts_with "exit" line = false ->
    replace_lines af g inside (line :: rest) = (if String.eqb af inside then (if (2 <=? List.length (split_ws line))%nat then (" " ++ join " " (replace_fields g false (split_ws line)))%string else line) else line) :: replace_lines af g inside rest).
  { intros line inside rest K A E. cbn [replace_lines]. rewrite (heads_agree line K), E. unfold acl_head in A.
    destruct (starts_with "ip access-list " line || starts_with "ipv4 access-list " line); [discriminate A|]. destruct (starts_with "ipv6 access-list " line); [discriminate A|].
    destruct (String.eqb af inside); reflexivity. }
  assert (stepx : forall line inside rest, known_head line -> starts_with "exit" line = true -> replace_lines af g inside (line :: rest) = line :: replace_lines af g "" rest).
  { intros line inside rest K E. destruct (exit_excl _ E) as (_ & A & _). cbn [replace_lines]. rewrite (heads_agree line K), E. unfold acl_head in A.
    destruct (starts_with "ip access-list " line || starts_with "ipv4 access-list " line); [discriminate A|]. destruct (starts_with "ipv6 access-list " line); [discriminate A|reflexivity]. }
  assert (stepa : forall line f inside rest, known_head line -> acl_head line = Some f -> replace_lines af g inside (line :: rest) = line :: replace_lines af g f rest).
  { intros line f inside rest K A. cbn [replace_lines]. rewrite (heads_agree line K). unfold acl_head in A.
    destruct (starts_with "ip access-list " line || starts_with "ipv4 access-list " line); [injection A as <-; reflexivity|]. destruct (starts_with "ipv6 access-list " line); [injection A as <-; reflexivity|discriminate A]. }
  assert (subst_nil : forall f h, subst_mode af g (MAcl f h []) = MAcl f h []) by (intros; unfold subst_mode; destruct (String.eqb _ af); reflexivity).
  induction lines as [|line lines IH]; intros K m items H.
  - cbn [read_config] in H. destruct m; try discriminate H; injection H as <-; [reflexivity|]. cbn [replace_lines]. unfold subst_mode. cbn [map subst_item]. destruct (String.eqb fam af); reflexivity.
  - inversion K as [|? ? K1 K2]; subst. cbn [read_config] in H. destruct m as [|f n ls|n ls|f h rs]; cbn [subst_mode inside_of].
    + destruct (is_empty line) eqn:Ee.
      { destruct line; [|discriminate Ee]. rewrite step; [|exact K1|reflexivity|reflexivity]. rewrite Naf. cbn [read_config is_empty]. exact (IH K2 MOut items H). }
      destruct (starts_with "object-group" line) eqn:Eo.
      * destruct (object_excl _ Eo) as (Ex & Ea & _). destruct (group_head line) as [m|] eqn:Eg; [|discriminate H]. rewrite step by assumption. rewrite Naf. cbn [read_config]. rewrite Ee, Eo, Eg.
        destruct (group_head_inv _ _ Eg) as [(f & n & -> & _)|(n & -> & _)]; exact (IH K2 _ _ H).
      * destruct (acl_head line) as [f|] eqn:Ea.
        -- rewrite (stepa line f) by assumption. cbn [read_config]. rewrite Ee, Eo, Ea. rewrite <- (subst_nil f line) at 1. exact (IH K2 _ _ H).
        -- destruct (read_config MOut lines) as [its|] eqn:Er; [|discriminate H]. injection H as <-. specialize (IH K2 _ _ Er). cbn [subst_mode inside_of] in IH.
           destruct (starts_with "exit" line) eqn:Ex; [rewrite stepx by assumption|rewrite step by assumption; rewrite Naf]; cbn [read_config]; rewrite Ee, Eo, Ea, IH; reflexivity.
    + destruct (starts_with "exit" line) eqn:Ex.
      * destruct (read_config MOut lines) as [its|] eqn:Er; [|discriminate H]. injection H as <-. rewrite stepx by assumption. cbn [read_config]. rewrite Ex. specialize (IH K2 _ _ Er). cbn [subst_mode inside_of] in IH. rewrite IH. reflexivity.
      * destruct (starts_with "object-group" line || is_empty line) eqn:Eo; [discriminate H|]. destruct (acl_head line) eqn:Ea; [discriminate H|]. rewrite step by assumption. rewrite Naf. cbn [read_config]. rewrite Ex, Eo, Ea. exact (IH K2 _ _ H).
    + destruct (starts_with "exit" line) eqn:Ex.
      * destruct (read_config MOut lines) as [its|] eqn:Er; [|discriminate H]. injection H as <-. rewrite stepx by assumption. cbn [read_config]. rewrite Ex. specialize (IH K2 _ _ Er). cbn [subst_mode inside_of] in IH. rewrite IH. reflexivity.
      * destruct (starts_with "object-group" line || is_empty line) eqn:Eo; [discriminate H|]. destruct (acl_head line) eqn:Ea; [discriminate H|]. rewrite step by assumption. rewrite Naf. cbn [read_config]. rewrite Ex, Eo, Ea. exact (IH K2 _ _ H).
    + set (m := if String.eqb f af then MAcl f h (map (replace_fields g false) rs) else MAcl f h rs). destruct (starts_with "exit" line) eqn:Ex.
      * destruct (read_config MOut lines) as [its|] eqn:Er; [|discriminate H]. injection H as <-. rewrite stepx by assumption. specialize (IH K2 _ _ Er). cbn [subst_mode inside_of] in IH. cbn [map subst_item]. unfold m.
        destruct (String.eqb f af); cbn [read_config]; rewrite Ex, IH; reflexivity.
      * destruct (starts_with "object-group" line) eqn:Eo; [discriminate H|]. destruct (acl_head line) as [f'|] eqn:Ea.
        -- destruct (read_config (MAcl f' line []) lines) as [its|] eqn:Er; [|discriminate H]. injection H as <-. rewrite (stepa line f') by assumption. specialize (IH K2 _ _ Er). cbn [inside_of] in IH. rewrite subst_nil in IH. cbn [map subst_item]. unfold m.
           destruct (String.eqb f af); cbn [read_config]; rewrite Ex, Eo, Ea, IH; reflexivity.
        -- rewrite step by assumption. rewrite (String.eqb_sym af f). unfold m. clear m. destruct (split_ws line) as [|w ws] eqn:Es.
           ++ specialize (IH K2 _ _ H). cbn [inside_of] in IH. unfold subst_mode in IH. destruct (String.eqb f af); cbn [List.length Nat.leb]; cbn [read_config]; rewrite Ex, Eo, Ea, Es; exact IH.
           ++ specialize (IH K2 _ _ H). cbn [inside_of] in IH. unfold subst_mode in IH. destruct (String.eqb f af) eqn:Ef.
              ** rewrite map_app in IH. cbn [map] in IH. destruct (2 <=? List.length (w :: ws))%nat eqn:E2.
                 --- cbn [read_config]. rewrite !starts_blank by discriminate. unfold acl_head. rewrite !starts_blank by discriminate. cbn [orb].
                     change (" " ++ join " " (replace_fields g false (w :: ws)))%string with (String " " (join " " (replace_fields g false (w :: ws)))). rewrite split_ws_lead.
                     rewrite split_good_join; [|apply (replace_good g G); rewrite <- Es; apply split_words_good]. exact IH.
                 --- destruct ws; [|cbn in E2; lia]. cbn [read_config]. rewrite Ex, Eo, Ea, Es. exact IH.
              ** cbn [read_config]. rewrite Ex, Eo, Ea, Es. exact IH.
Qed.

(** ** Lines and texts *)

Definition clean (line : string) : Prop := forall_char (fun c => negb (line_end c)) line = true.
Lemma clean_app a b : clean (a ++ b)%string <-> clean a /\ clean b.
Proof.
  unfold clean. induction a as [|c a IH]; [cbn; tauto|]. cbn [append forall_char]. rewrite !andb_true_iff, IH. tauto.
Qed.
Lemma lines_step s : forall cur o r, clean s -> splitlines_aux (s ++ String newline r) cur o = (cur ++ s)%string :: splitlines_aux r "" false.
Proof.
  induction s as [|c s IH]; intros cur o r C.
  - cbn [append splitlines_aux]. change (line_end newline) with true. cbn iota. rewrite str_app_nil. change (Ascii.eqb newline "013") with false. destruct r as [|d r]; [reflexivity|].
    destruct d as [[] [] [] [] [] [] [] []]; reflexivity.
  - unfold clean in C. cbn [forall_char] in C. apply andb_true_iff in C. destruct C as (C1 & C2). apply negb_true_iff in C1. cbn [append splitlines_aux]. rewrite C1, (IH _ _ _ C2), str_app_assoc. reflexivity.
Qed.
Lemma lines_last s : forall cur o, clean s -> splitlines_aux s cur o = if o || negb (is_empty s) then [(cur ++ s)%string] else [].
Proof.
  induction s as [|c s IH]; intros cur o C.
  - cbn [splitlines_aux is_empty negb]. rewrite orb_false_r, str_app_nil. reflexivity.
  - unfold clean in C. cbn [forall_char] in C. apply andb_true_iff in C. destruct C as (C1 & C2). apply negb_true_iff in C1. cbn [splitlines_aux]. rewrite C1, (IH _ _ C2), str_app_assoc. cbn. rewrite orb_true_r. reflexivity.
Qed.
Lemma lines_join ls : Forall clean ls -> splitlines (join lf ls) = ls \/ ls = splitlines (join lf ls) ++ [""].
Proof.
  unfold splitlines. induction ls as [|s ls IH]; intros F; [left; reflexivity|]. inversion F as [|? ? F1 F2]; subst. destruct ls as [|s' ls].
  - cbn [join]. rewrite (lines_last s _ _ F1). destruct s; [right|left]; reflexivity.
  - change (join lf (s :: s' :: ls)) with (s ++ String newline (join lf (s' :: ls)))%string. rewrite (lines_step s _ _ _ F1). cbn [append].
    destruct (IH F2) as [E|E]; [left; rewrite E; reflexivity|right; cbn [app]; rewrite E at 1; reflexivity].
Qed.
Lemma read_blank_end ls : forall m, read_config m (ls ++ [""]) = read_config m ls.
Proof.
  induction ls as [|line ls IH]; intros m.
  - cbn [app]. destruct m; reflexivity.
  - cbn [app]. destruct m; cbn [read_config]; rewrite ?IH; repeat (match goal with |- context [if ?b then _ else _] => destruct b | |- context [match ?b with _ => _ end] => destruct b end; try reflexivity; rewrite ?IH; try reflexivity).
Qed.
Lemma read_lines_join m ls : Forall clean ls -> read_config m (splitlines (join lf ls)) = read_config m ls.
Proof.
  intros F. destruct (lines_join ls F) as [E|E]; [rewrite E; reflexivity|]. rewrite E at 2. rewrite read_blank_end. reflexivity.
Qed.
Lemma lines_sub ls x : Forall clean ls -> In x (splitlines (join lf ls)) -> In x ls.
Proof. intros F I. destruct (lines_join ls F) as [E|E]; [rewrite <- E; exact I|rewrite E; apply in_or_app; left; exact I]. Qed.
Lemma clean_no_newline s : clean s -> has_char newline s = false.
Proof.
  unfold clean. induction s as [|c s IH]; [reflexivity|]. cbn [forall_char has_char]. intros H. apply andb_true_iff in H. destruct H as (H1 & H2). rewrite (IH H2), orb_false_r.
  destruct (Ascii.eqb c newline) eqn:E; [|reflexivity]. apply Ascii.eqb_eq in E. subst c. discriminate H1.
Qed.
Lemma split_join_lf ls : ls <> [] -> Forall clean ls -> split_char newline (join lf ls) = ls.
Proof.
  induction ls as [|s ls IH]; intros N F; [contradiction|]. inversion F as [|? ? F1 F2]; subst. apply clean_no_newline in F1. destruct ls as [|s' ls].
  - cbn [join]. apply split_char_none, F1.
  - change (join lf (s :: s' :: ls)) with (s ++ String newline (join lf (s' :: ls)))%string. rewrite split_char_app by exact F1. rewrite IH; [reflexivity|discriminate|exact F2].
Qed.
Lemma join_split_lf t : join lf (split_char newline t) = t.
Proof.
  induction t as [|c t IH]; [reflexivity|]. cbn [split_char]. pose proof (split_char_nonnil newline t) as N. destruct (Ascii.eqb c newline) eqn:E.
  - apply Ascii.eqb_eq in E. subst c. destruct (split_char newline t) as [|w ws]; [contradiction|]. change (join lf ("" :: w :: ws)) with (String newline (join lf (w :: ws))). rewrite IH. reflexivity.
  - destruct (split_char newline t) as [|w ws]; [contradiction|]. destruct ws as [|w' ws]; cbn [join] in *; [rewrite IH; reflexivity|]. cbn [append]. f_equal. exact IH.
Qed.
Lemma plain_clean t : plain_lines t -> Forall clean (split_char newline t).
Proof.
  unfold plain_lines, clean. induction t as [|c t IH]; intros P; [repeat constructor|]. cbn [forall_char] in P. apply andb_true_iff in P. destruct P as (P1 & P2). cbn [split_char].
  destruct (Ascii.eqb c newline) eqn:E; [constructor; [reflexivity|apply IH, P2]|]. pose proof (IH P2) as F. rewrite orb_false_r in P1.
  destruct (split_char newline t) as [|w ws]; [repeat constructor; cbn; rewrite P1; reflexivity|]. inversion F as [|? ? F1 F2]; subst. constructor; [cbn [forall_char]; rewrite P1, F1; reflexivity|exact F2].
Qed.
Lemma read_join m ls : Forall clean ls -> read_config m (split_char newline (join lf ls)) = read_config m ls.
Proof.
  intros F. destruct ls as [|s ls]; [destruct m; reflexivity|]. rewrite split_join_lf; [reflexivity|discriminate|exact F].
Qed.

Lemma no_ws_clean w : no_ws w -> clean w.
Proof.
  unfold no_ws, clean. induction w as [|c w IH]; [reflexivity|]. cbn [forall_char]. rewrite !andb_true_iff, !negb_true_iff. intros (H1 & H2). split; [|exact (IH H2)].
  revert H1. unfold is_ws, line_end. generalize (nat_of_ascii c). intros k. lia.
Qed.
Lemma good_clean w : good_word w -> clean w.
Proof.
  intros G. apply no_ws_clean. apply (split_ws_words w w). rewrite G. left. reflexivity.
Qed.
Lemma join_good_clean ws : Forall good_word ws -> clean (join " " ws).
Proof.
  induction 1 as [|w ws H F IH]; [reflexivity|]. destruct ws as [|w' ws]; [exact (good_clean w H)|]. change (join " " (w :: w' :: ws)) with (w ++ " " ++ join " " (w' :: ws))%string.
  apply clean_app. split; [exact (good_clean w H)|]. apply clean_app. split; [reflexivity|exact IH].
Qed.
Definition group_fine (f n : string) (ls : list string) : Prop := In f ["ipv4"; "ipv6"] /\ good_word n /\ Forall (fun l => clean l /\ l <> "") ls.
Definition mode_fine (m : cmode) : Prop := match m with MGroup f n ls => group_fine f n ls | _ => True end.
Definition item_fine (i : citem) : Prop := match i with CGroup f n ls => group_fine f n ls | _ => True end.
Lemma read_fine lines : Forall clean lines -> forall m items, mode_fine m -> read_config m lines = Some items -> Forall item_fine items.
Proof.
  induction lines as [|line lines IH]; intros F m items M H.
  - cbn [read_config] in H. destruct m; try discriminate H; injection H as <-; repeat constructor.
  - inversion F as [|? ? F1 F2]; subst. specialize (IH F2).
    assert (more : forall i m, item_fine i -> mode_fine m -> option_map (cons i) (read_config m lines) = Some items -> Forall item_fine items).
    { intros i m' Hi Hm E. destruct (read_config m' lines) as [its|] eqn:Er; [|discriminate E]. injection E as <-. constructor; [exact Hi|]. exact (IH _ _ Hm Er). }
    cbn [read_config] in H. destruct m as [|f n ls|n ls|f h rs].
    + destruct (is_empty line); [exact (IH MOut _ Logic.I H)|]. destruct (starts_with "object-group" line).
      * destruct (group_head line) as [m|] eqn:Eg; [|discriminate H]. apply (IH m); [|exact H]. destruct (group_head_inv _ _ Eg) as [(f & n & -> & Ew & If)|(n & -> & _)]; [|exact Logic.I].
        split; [exact If|]. split; [|constructor]. pose proof (split_words_good line) as G. rewrite Ew in G. rewrite Forall_forall in G. apply G. cbn. auto.
      * destruct (acl_head line); [exact (IH (MAcl _ _ _) _ Logic.I H)|]. apply (more (COther line) MOut); [exact Logic.I|exact Logic.I|exact H].
    + destruct (starts_with "exit" line); [apply (more (CGroup f n ls) MOut M Logic.I H)|]. destruct (starts_with "object-group" line || is_empty line) eqn:Eo; [discriminate H|]. apply orb_false_iff in Eo. destruct Eo as (_ & Ee).
      destruct (acl_head line); [discriminate H|]. apply (IH _ _) in H; [exact H|]. destruct M as (M1 & M2 & M3). split; [exact M1|]. split; [exact M2|]. apply Forall_app. split; [exact M3|]. constructor; [|constructor].
      split; [exact F1|]. intros ->. discriminate Ee.
    + destruct (starts_with "exit" line); [apply (more (CPorts n ls) MOut Logic.I Logic.I H)|]. destruct (starts_with "object-group" line || is_empty line); [discriminate H|]. destruct (acl_head line); [discriminate H|]. exact (IH (MPorts _ _) _ Logic.I H).
    + destruct (starts_with "exit" line); [apply (more (CAcl f h rs) MOut Logic.I Logic.I H)|]. destruct (starts_with "object-group" line); [discriminate H|]. destruct (acl_head line).
      * apply (more (CAcl f h rs) (MAcl s line []) Logic.I Logic.I H).
      * destruct (split_ws line); exact (IH (MAcl _ _ _) _ Logic.I H).
Qed.
Lemma remove_sub af names lines : forall inside skip x, In x (remove_lines af names inside skip lines) -> In x lines.
Proof.
  induction lines as [|line lines IH]; intros inside skip x I; [exact I|]. cbn [remove_lines] in I.
  repeat match type of I with
  | In _ (let '(_, _) := ?b in _) => destruct b
  | In _ (if ?b then _ else _) => destruct b
  | In _ (_ :: _) => destruct I as [I|I]; [left; exact I|]
  end; right; exact (IH _ _ _ I).
Qed.
Lemma replace_clean af g lines : (forall x, In x g -> good_word (snd x)) -> Forall clean lines -> Forall known_head lines -> forall inside,
  Forall clean (replace_lines af g inside lines) /\ Forall known_head (replace_lines af g inside lines).
Proof.
  intros G. induction lines as [|line lines IH]; intros F K inside; [split; constructor|]. inversion F as [|? ? F1 F2]; subst. inversion K as [|? ? K1 K2]; subst. specialize (IH F2 K2).
  assert (C : forall inside, Forall clean (line :: replace_lines af g inside lines) /\ Forall known_head (line :: replace_lines af g inside lines))
    by (intros i; destruct (IH i); split; constructor; assumption).
  cbn [replace_lines]. destruct (_ || _); [apply C|]. destruct (starts_with _ line); [apply C|]. destruct (starts_with _ line); [apply C|]. destruct (String.eqb af inside); [|apply C].
  destruct (2 <=? _)%nat; [|apply C]. destruct (IH inside) as (I1 & I2). split; constructor; try assumption.
  - apply clean_app. split; [reflexivity|]. apply join_good_clean, (replace_good g G), split_words_good.
  - intros X. rewrite starts_blank in X by discriminate. discriminate X.
Qed.
Definition dups (af : string) (items : list citem) : list (string * string) := snd (fold_left dup_item (groups_of af items) ([], [])).
Lemma groups_in fam items n ls : In (n, ls) (groups_of fam items) <-> In (CGroup fam n ls) items.
Proof.
  unfold groups_of. rewrite in_flat_map. split.
  - intros (i & I & H). destruct i as [f m k|m k|f h rs|line]; try contradiction. destruct (String.eqb f fam) eqn:E; [|contradiction]. apply String.eqb_eq in E. destruct H as [H|[]]. injection H as -> ->. subst f. exact I.
  - intros I. exists (CGroup fam n ls). split; [exact I|]. rewrite String.eqb_refl. left. reflexivity.
Qed.
(** What the names on the right are: names of groups. *)
Lemma dup_values gs : forall st, (forall x, In x (fst st) -> In (snd x) (map fst gs) \/ In x (fst st)) ->
  forall x, In x (snd (fold_left dup_item gs st)) -> In x (snd st) \/ In (snd x) (map fst gs) \/ In (snd x) (map snd (fst st)).
Proof.
  induction gs as [|g gs IH]; intros st _ x H; [left; exact H|]. cbn [fold_left] in H. apply IH in H; [|auto]. unfold dup_item in H. destruct (assoc (join lf (snd g)) (fst st)) as [first|] eqn:E; cbn [fst snd map] in H.
  - destruct H as [[<-|H]|[H|H]]; [|left; exact H|right; left; right; exact H|right; right; exact H]. right. right. cbn [snd]. apply assoc_in in E. apply (in_map snd) in E. exact E.
  - destruct H as [H|[H|[H|H]]]; [left; exact H|right; left; right; exact H|right; left; left; exact H|right; right; exact H].
Qed.
Lemma pass af ls items : In af ["ipv4"; "ipv6"] -> Forall clean ls -> Forall known_head ls -> read_config MOut ls = Some items ->
  exists ls', remove_duplicates_of (join lf ls) af = join lf ls' /\ Forall clean ls' /\ Forall known_head ls' /\
    read_config MOut ls' = Some (map (subst_item af (dups af items)) (filter (kept af (map fst (dups af items))) items)).
Proof.
  intros Iaf C K R. unfold remove_duplicates_of.
  assert (R1 : read_config MOut (splitlines (join lf ls)) = Some items) by (rewrite (read_lines_join MOut ls C); exact R).
  assert (ED : duplicate_groups (join lf ls) af = dups af items).
  { unfold duplicate_groups, dups. pose proof (dup_run af _ _ _ (mkDup false "" [] [] []) R1 (conj eq_refl eq_refl)) as H. unfold dup_out in H at 2. cbn [d_groups d_dups] in H. rewrite <- H. reflexivity. }
  rewrite ED. set (d := dups af items). unfold replace_references, remove_object_groups.
  set (ls1 := remove_lines af (map fst d) false false (splitlines (join lf ls))).
  assert (S1 : forall x, In x ls1 -> In x ls) by (intros x I; apply remove_sub in I; exact (lines_sub ls x C I)).
  assert (C1 : Forall clean ls1) by (rewrite Forall_forall in *; auto).
  assert (K1 : Forall known_head ls1) by (rewrite Forall_forall in *; auto).
  pose proof (remove_run af (map fst d) _ _ _ R1) as R2. cbn beta iota in R2. fold ls1 in R2.
  assert (G : forall x, In x d -> good_word (snd x)).
  { intros x I. unfold d, dups in I. apply dup_values in I; [|intros y []]. destruct I as [[]|[I|[]]]. apply in_map_iff in I. destruct I as ((n & m) & En & In_). cbn [fst] in En.
    apply groups_in in In_. pose proof (read_fine ls C MOut items Logic.I R) as F. rewrite Forall_forall in F. specialize (F _ In_). destruct F as (_ & F & _). rewrite <- En. exact F. }
  assert (S2 : forall x, In x (splitlines (join lf ls1)) -> In x ls1) by (intros x; apply (lines_sub ls1 x C1)).
  assert (C2 : Forall clean (splitlines (join lf ls1))) by (rewrite Forall_forall in *; auto).
  assert (K2 : Forall known_head (splitlines (join lf ls1))) by (rewrite Forall_forall in *; auto).
  destruct (replace_clean af d _ G C2 K2 "") as (C3 & K3).
  exists (replace_lines af d "" (splitlines (join lf ls1))). split; [reflexivity|]. split; [exact C3|]. split; [exact K3|].
  rewrite <- (read_lines_join MOut ls1 C1) in R2. exact (replace_run af d _ Iaf G K2 MOut _ R2).
Qed.

(** ** What the passes mean *)

Lemma dup_spec gs : NoDup (map fst gs) -> let st := fold_left dup_item gs ([], []) in
  (forall k n, In (k, n) (fst st) -> exists ls, In (n, ls) gs /\ join lf ls = k /\ ~ In n (map fst (snd st))) /\
  (forall n f, In (n, f) (snd st) -> exists ls ls', In (n, ls) gs /\ In (f, ls') gs /\ join lf ls = join lf ls' /\ In (join lf ls, f) (fst st)) /\
  (forall n ls, In (n, ls) gs -> In n (map fst (snd st)) \/ In (join lf ls, n) (fst st)) /\
  NoDup (map fst (fst st)).
Proof.
  cbv zeta. induction gs as [|g gs IH] using rev_ind; intros N.
  - cbn. repeat split; try (intros; contradiction). constructor.
  - rewrite map_app in N. cbn [map] in N. apply NoDup_remove in N. rewrite app_nil_r in N. destruct N as (N & Ng). specialize (IH N). rewrite fold_left_app. cbn [fold_left].
    set (st := fold_left dup_item gs ([], [])) in *. destruct IH as (I1 & I2 & I3 & I4). destruct g as (n0 & l0). cbn [fst] in Ng. unfold dup_item. cbn [fst snd].
    destruct (assoc (join lf l0) (fst st)) as [first|] eqn:E; cbn [fst snd].
    + apply assoc_in in E. destruct (I1 _ _ E) as (l1 & J1 & J2 & J3). split; [|split; [|split]].
      * intros k n I. destruct (I1 _ _ I) as (ls & A & B & C). exists ls. split; [apply in_or_app; left; exact A|]. split; [exact B|]. cbn [map fst]. intros [X|X]; [|exact (C X)]. subst n0. apply Ng. apply in_map_iff. exists (n, ls). auto.
      * intros n f [X|I].
        -- injection X as <- <-. exists l0, l1. split; [apply in_or_app; right; left; reflexivity|]. split; [apply in_or_app; left; exact J1|]. split; [symmetry; exact J2|exact E].
        -- destruct (I2 _ _ I) as (a & b & A & B & C). exists a, b. split; [apply in_or_app; left; exact A|]. split; [apply in_or_app; left; exact B|exact C].
      * intros n ls I. apply in_app_or in I. destruct I as [I|[X|[]]]; [|left; left; injection X as -> ->; reflexivity]. destruct (I3 _ _ I) as [A|A]; [left; right; exact A|right; exact A].
      * exact I4.
    + apply assoc_none in E. split; [|split; [|split]].
      * intros k n [X|I].
        -- injection X as <- <-. exists l0. split; [apply in_or_app; right; left; reflexivity|]. split; [reflexivity|]. intros X. apply Ng. apply in_map_iff in X. destruct X as ((n & f) & En & X). cbn [fst] in En. subst n.
           destruct (I2 _ _ X) as (a & b & A & _). apply in_map_iff. exists (n0, a). auto.
        -- destruct (I1 _ _ I) as (ls & A & B & C). exists ls. split; [apply in_or_app; left; exact A|]. split; [exact B|exact C].
      * intros n f I. destruct (I2 _ _ I) as (a & b & A & B & C & D). exists a, b. split; [apply in_or_app; left; exact A|]. split; [apply in_or_app; left; exact B|]. split; [exact C|right; exact D].
      * intros n ls I. apply in_app_or in I. destruct I as [I|[X|[]]]; [|right; left; injection X as -> ->; reflexivity]. destruct (I3 _ _ I) as [A|A]; [left; exact A|right; right; exact A].
      * cbn [map fst]. constructor; [exact E|exact I4].
Qed.
Lemma join_lf_inj a b : Forall (fun l => clean l /\ l <> "") a -> Forall (fun l => clean l /\ l <> "") b -> join lf a = join lf b -> a = b.
Proof.
  intros Fa Fb E. assert (N : forall l, Forall (fun l => clean l /\ l <> "") l -> join lf l = "" -> l = []).
  { intros l F X. destruct l as [|s l]; [reflexivity|]. inversion F as [|? ? (_ & F1) _]; subst. destruct s as [|c s]; [contradiction|]. destruct l; discriminate X. }
  assert (C : forall l, Forall (fun l => clean l /\ l <> "") l -> Forall clean l) by (intros l F; eapply Forall_impl; [|exact F]; intros x H; apply H).
  destruct a as [|s a]; [symmetry; apply (N b Fb); rewrite <- E; reflexivity|]. destruct b as [|t b]; [apply (N _ Fa); rewrite E; reflexivity|].
  rewrite <- (split_join_lf (s :: a)); [|discriminate|exact (C _ Fa)]. rewrite E. apply split_join_lf; [discriminate|exact (C _ Fb)].
Qed.
Lemma groups_app fam a b : groups_of fam (a ++ b) = groups_of fam a ++ groups_of fam b.
Proof. apply flat_map_app. Qed.
Lemma groups_kept af names items fam : groups_of fam (filter (kept af names) items) =
  filter (fun g => negb (String.eqb fam af && str_in (fst g) names)) (groups_of fam items).
Proof.
  induction items as [|i items IH]; [reflexivity|]. cbn [filter]. change (i :: items) with ([i] ++ items). rewrite (groups_app fam [i] items), filter_app, <- IH.
  destruct i as [f n ls|n ls|f h rs|line]; try reflexivity. cbn [kept]. unfold groups_of at 2. cbn [flat_map]. destruct (String.eqb f fam) eqn:Ef.
  - apply String.eqb_eq in Ef. subst f. cbn [app filter fst]. destruct (negb (String.eqb fam af && str_in n names)); [|reflexivity].
    change (CGroup fam n ls :: filter (kept af names) items) with ([CGroup fam n ls] ++ filter (kept af names) items). rewrite groups_app. unfold groups_of at 1. cbn [flat_map]. rewrite String.eqb_refl. reflexivity.
  - cbn [app filter]. destruct (negb (String.eqb f af && str_in n names)); [|reflexivity].
    change (CGroup f n ls :: filter (kept af names) items) with ([CGroup f n ls] ++ filter (kept af names) items). rewrite groups_app. unfold groups_of at 1. cbn [flat_map]. rewrite Ef. reflexivity.
Qed.
Lemma groups_subst af g items fam : groups_of fam (map (subst_item af g) items) = groups_of fam items.
Proof.
  induction items as [|i items IH]; [reflexivity|]. cbn [map]. unfold groups_of. cbn [flat_map]. fold (groups_of fam items). fold (groups_of fam (map (subst_item af g) items)). rewrite IH.
  destruct i as [f n ls|n ls|f h rs|line]; try reflexivity. cbn [subst_item]. destruct (String.eqb f af); reflexivity.
Qed.
Lemma acls_kept af names items : acls_of (filter (kept af names) items) = acls_of items.
Proof.
  induction items as [|i items IH]; [reflexivity|]. cbn [filter]. destruct i as [f n ls|n ls|f h rs|line]; cbn [kept]; try (unfold acls_of; cbn [flat_map app]; fold (acls_of items); fold (acls_of (filter (kept af names) items)); rewrite IH; reflexivity).
  destruct (negb _); exact IH.
Qed.
Definition subst_acl (af : string) (g : list (string * string)) (a : string * string * list (list string)) : string * string * list (list string) :=
  if String.eqb (fst (fst a)) af then (fst a, map (replace_fields g false) (snd a)) else a.
Lemma acls_subst af g items : acls_of (map (subst_item af g) items) = map (subst_acl af g) (acls_of items).
Proof.
  induction items as [|i items IH]; [reflexivity|]. cbn [map]. destruct i as [f n ls|n ls|f h rs|line]; try exact IH. unfold acls_of. cbn [flat_map map app subst_item]. fold (acls_of items). fold (acls_of (map (subst_item af g) items)).
  unfold subst_acl at 1. cbn [fst snd]. destruct (String.eqb f af); cbn [app]; rewrite IH; reflexivity.
Qed.
Lemma rest_pass af names g items : rest_of (map (subst_item af g) (filter (kept af names) items)) = rest_of items.
Proof.
  induction items as [|i items IH]; [reflexivity|]. cbn [filter]. destruct i as [f n ls|n ls|f h rs|line]; cbn [kept].
  - destruct (negb _); exact IH.
  - unfold rest_of. cbn [map subst_item filter]. f_equal. exact IH.
  - unfold rest_of. cbn [map subst_item filter]. destruct (String.eqb f af); exact IH.
  - unfold rest_of. cbn [map subst_item filter]. f_equal. exact IH.
Qed.

Lemma assoc_kept {A} (p : string -> bool) k (l : list (string * A)) : assoc k (filter (fun g => p (fst g)) l) = if p k then assoc k l else None.
Proof.
  induction l as [|(k' & v) l IH]; cbn [filter fst assoc]; [destruct (p k); reflexivity|]. destruct (p k') eqn:E.
  - cbn [assoc]. destruct (String.eqb k k') eqn:F; [|exact IH]. apply String.eqb_eq in F. subst k'. rewrite E. reflexivity.
  - rewrite IH. destruct (String.eqb k k') eqn:F; [|reflexivity]. apply String.eqb_eq in F. subst k'. rewrite E. reflexivity.
Qed.
Lemma assoc_unique {A} k (v : A) l : NoDup (map fst l) -> In (k, v) l -> assoc k l = Some v.
Proof.
  induction l as [|(k' & v') l IH]; intros N I; [contradiction|]. cbn [map fst] in N. inversion N as [|? ? N1 N2]; subst. cbn [assoc]. destruct I as [X|I].
  - injection X as -> ->. rewrite String.eqb_refl. reflexivity.
  - destruct (String.eqb k k') eqn:E; [|exact (IH N2 I)]. apply String.eqb_eq in E. subst k'. exfalso. apply N1. apply in_map_iff. exists (k, v). auto.
Qed.
Lemma same_words_refl L L' : (forall w, L w = L' w) -> forall ws b, same_words L L' b ws ws.
Proof.
  intros E. induction ws as [|w ws IH]; intros b; [exact Logic.I|]. cbn [same_words]. split; [|apply IH]. destruct b; [split; [apply E|reflexivity]|reflexivity].
Qed.
Lemma same_words_trans A B C : A "net-group" = None -> B "net-group" = None -> forall x y z b, same_words A B b x y -> same_words B C b y z -> same_words A C b x z.
Proof.
  intros NA NB. induction x as [|w x IH]; intros [|w1 y] [|w2 z] b H1 H2; try contradiction; [exact Logic.I|]. cbn [same_words] in *. destruct H1 as (P1 & Q1). destruct H2 as (P2 & Q2).
  assert (E : String.eqb w1 "net-group" = String.eqb w "net-group").
  { destruct b; [|congruence]. destruct P1 as (P1 & P1'). destruct (String.eqb w "net-group") eqn:Ew.
    - apply String.eqb_eq in Ew. subst w. rewrite (P1' NA). reflexivity.
    - destruct (String.eqb w1 "net-group") eqn:Ew1; [|reflexivity]. apply String.eqb_eq in Ew1. subst w1. rewrite NB in P1. specialize (P1' P1). subst w. discriminate Ew. }
  rewrite E in Q2. split; [|exact (IH _ _ _ Q1 Q2)]. destruct b; [|congruence]. destruct P1 as (P1 & P1'). destruct P2 as (P2 & P2'). split; [congruence|]. intros X. specialize (P1' X). subst w1. apply P2'. congruence.
Qed.
Definition pass_items (af : string) (items : list citem) : list citem := map (subst_item af (dups af items)) (filter (kept af (map fst (dups af items))) items).
Definition once (items : list citem) (fam : string) : Prop := NoDup (map fst (groups_of fam items)) /\ members items fam "net-group" = None.
Lemma members_other af items fam : fam <> af -> groups_of fam (pass_items af items) = groups_of fam items.
Proof.
  intros N. unfold pass_items. rewrite groups_subst, groups_kept. rewrite (proj2 (String.eqb_neq fam af) N). cbn [andb negb]. induction (groups_of fam items) as [|g l IH]; [reflexivity|]. cbn [filter]. rewrite IH. reflexivity.
Qed.
Lemma members_pass af items w : members (pass_items af items) af w = if str_in w (map fst (dups af items)) then None else members items af w.
Proof.
  unfold members, pass_items. rewrite groups_subst, groups_kept, String.eqb_refl. cbn [andb]. rewrite (assoc_kept (fun n => negb (str_in n (map fst (dups af items))))). destruct (str_in w _); reflexivity.
Qed.
Lemma pass_words af items : Forall item_fine items -> once items af -> forall ws b,
  same_words (members items af) (members (pass_items af items) af) b ws (replace_fields (dups af items) b ws).
Proof.
  intros F (N & NG). pose proof (dup_spec _ N) as D. cbv zeta in D. fold (dups af items) in D. destruct D as (D1 & D2 & D3 & D4).
  assert (nm : forall n ls, In (n, ls) (groups_of af items) -> members items af n = Some ls) by (intros n ls; apply assoc_unique, N).
  induction ws as [|w ws IH]; intros b; [exact Logic.I|]. cbn [replace_fields same_words].
  destruct b; [|split; [reflexivity|apply IH]]. destruct (assoc w (dups af items)) as [f|] eqn:E.
  - apply assoc_in in E. destruct (D2 _ _ E) as (ls & ls' & A & B & C & G).
    assert (EL : ls = ls').
    { rewrite Forall_forall in F. apply join_lf_inj; [| |exact C]; [apply groups_in, F in A|apply groups_in, F in B]; [apply A|apply B]. }
    subst ls'. destruct (D1 _ _ G) as (_ & _ & _ & NF).
    assert (X : members items af w = members (pass_items af items) af f).
    { rewrite (nm _ _ A), members_pass. destruct (str_in f (map fst (dups af items))) eqn:Ef; [apply str_in_spec in Ef; contradiction|]. symmetry. exact (nm _ _ B). }
    split; [split; [exact X|]|]; [rewrite (nm _ _ A); discriminate|].
    assert (W1 : String.eqb w "net-group" = false) by (apply String.eqb_neq; intros ->; rewrite (nm _ _ A) in NG; discriminate NG).
    assert (W2 : String.eqb f "net-group" = false) by (apply String.eqb_neq; intros ->; rewrite (nm _ _ B) in NG; discriminate NG).
    rewrite W1, W2. apply IH.
  - split; [|apply IH]. split; [|reflexivity]. rewrite members_pass. apply assoc_none in E. destruct (str_in w (map fst (dups af items))) eqn:Ew; [apply str_in_spec in Ew; contradiction|reflexivity].
Qed.
Lemma pass_fine af items : Forall item_fine items -> Forall item_fine (pass_items af items).
Proof.
  intros F. unfold pass_items. apply Forall_forall. intros i I. apply in_map_iff in I. destruct I as (j & <- & I). apply filter_In in I. destruct I as (I & _). rewrite Forall_forall in F. specialize (F j I).
  destruct j as [f n ls|n ls|f h rs|line]; try exact F. cbn [subst_item]. destruct (String.eqb f af); exact Logic.I.
Qed.
Lemma NoDup_filter_fst {A} (p : string * A -> bool) l : NoDup (map fst l) -> NoDup (map fst (filter p l)).
Proof.
  induction l as [|x l IH]; intros N; [constructor|]. cbn [map] in N. inversion N as [|? ? N1 N2]; subst. cbn [filter]. destruct (p x); [|exact (IH N2)]. cbn [map]. constructor; [|exact (IH N2)].
  intros X. apply N1. apply in_map_iff in X. destruct X as (y & E & Y). apply filter_In in Y. apply in_map_iff. exists y. tauto.
Qed.
Lemma pass_once af items fam : once items fam -> once (pass_items af items) fam.
Proof.
  intros (N & G). destruct (String.eqb fam af) eqn:E.
  - apply String.eqb_eq in E. subst fam. split.
    + unfold pass_items. rewrite groups_subst, groups_kept. apply NoDup_filter_fst, N.
    + rewrite members_pass, G. destruct (str_in _ _); reflexivity.
  - apply String.eqb_neq in E. split; [rewrite (members_other af items fam E); exact N|]. unfold members. rewrite (members_other af items fam E). exact G.
Qed.
Lemma pass_same af items : Forall item_fine items -> once items af -> same_config items (pass_items af items).
Proof.
  intros F O. split; [|split].
  - unfold pass_items at 2. rewrite acls_subst, acls_kept. induction (acls_of items) as [|((f & h) & rs) l IH]; [constructor|]. cbn [map]. constructor; [|exact IH]. unfold same_acl, subst_acl. cbn [fst snd]. destruct (String.eqb f af) eqn:E; cbn [fst snd].
    + split; [reflexivity|]. apply String.eqb_eq in E. subst f. induction rs as [|ws rs IHr]; [constructor|]. cbn [map]. constructor; [|exact IHr]. apply pass_words; assumption.
    + split; [reflexivity|]. apply String.eqb_neq in E. induction rs as [|ws rs IHr]; [constructor|]. constructor; [|exact IHr]. apply same_words_refl. intros w. unfold members. rewrite members_other by exact E. reflexivity.
  - apply rest_pass.
  - intros fam g I. unfold pass_items in I. rewrite groups_subst, groups_kept in I. apply filter_In in I. apply I.
Qed.
Lemma pass_distinct af items n n' ls : Forall item_fine items -> once items af -> In (n, ls) (groups_of af (pass_items af items)) -> In (n', ls) (groups_of af (pass_items af items)) -> n = n'.
Proof.
  intros F (N & _). pose proof (dup_spec _ N) as D. cbv zeta in D. fold (dups af items) in D. destruct D as (D1 & D2 & D3 & D4). unfold pass_items. rewrite groups_subst, groups_kept, String.eqb_refl. cbn [andb].
  intros A B. apply filter_In in A, B. cbn [fst] in A, B. destruct A as (A & A'). destruct B as (B & B'). apply negb_true_iff in A', B'.
  destruct (D3 _ _ A) as [X|X]; [apply str_in_spec in X; congruence|]. destruct (D3 _ _ B) as [Y|Y]; [apply str_in_spec in Y; congruence|].
  pose proof (assoc_unique _ _ _ D4 X) as E1. pose proof (assoc_unique _ _ _ D4 Y) as E2. congruence.
Qed.
Lemma same_config_trans a b c : (forall fam, once a fam) -> (forall fam, once b fam) -> same_config a b -> same_config b c -> same_config a c.
Proof.
  intros OA OB (A1 & A2 & A3) (B1 & B2 & B3). split; [|split; [congruence|auto]]. revert A1 B1. generalize (acls_of a), (acls_of b), (acls_of c). intros x y z H. revert z. induction H as [|p q x y (E & W) H IH]; intros z K; inversion K as [|? r ? z' (E' & W') K']; subst; constructor; [|exact (IH _ K')].
  split; [congruence|]. rewrite E in W'. revert W W'. generalize (snd p), (snd q), (snd r). intros u v w Hu. revert w. induction Hu as [|s t u v H1 Hu IHu]; intros w Hw; inversion Hw as [|? t' ? w' H1' Hw']; subst; constructor; [|exact (IHu _ Hw')].
  exact (same_words_trans _ _ _ (proj2 (OA _)) (proj2 (OB _)) _ _ _ _ H1 H1').
Qed.
Lemma once_all items : Forall item_fine items -> names_once items -> forall fam, once items fam.
Proof.
  intros F N fam. destruct (in_dec string_dec fam ["ipv4"; "ipv6"]) as [I|I]; [exact (N fam I)|].
  assert (E : groups_of fam items = []).
  { destruct (groups_of fam items) as [|(n & ls) l] eqn:E; [reflexivity|]. exfalso. apply I. assert (X : In (n, ls) (groups_of fam items)) by (rewrite E; left; reflexivity). apply groups_in in X. rewrite Forall_forall in F. apply (F _ X). }
  split; [rewrite E; constructor|]. unfold members. rewrite E. reflexivity.
Qed.
Lemma removal_same text items : plain_lines text -> known_heads text -> config_of text = Some items -> names_once items ->
  exists items', config_of (remove_duplicate_objects text) = Some items' /\ same_config items items' /\ names_once items' /\ no_duplicates items'.
Proof.
  intros P K R N. unfold config_of in *. pose proof (plain_clean text P) as C. pose proof (read_fine _ C MOut items Logic.I R) as F. pose proof (once_all items F N) as O.
  assert (K' : Forall known_head (split_char newline text)) by (apply Forall_forall; intros l I; exact (K l I)).
  unfold remove_duplicate_objects. rewrite <- (join_split_lf text).
  destruct (pass "ipv4" _ _ (or_introl eq_refl) C K' R) as (l1 & E1 & C1 & K1 & R1). rewrite E1. fold (pass_items "ipv4" items) in R1.
  pose proof (pass_fine "ipv4" items F) as F1. assert (O1 : forall fam, once (pass_items "ipv4" items) fam) by (intros fam; apply pass_once, O).
  destruct (pass "ipv6" _ _ (or_intror (or_introl eq_refl)) C1 K1 R1) as (l2 & E2 & C2 & K2 & R2). rewrite E2. fold (pass_items "ipv6" (pass_items "ipv4" items)) in R2.
  exists (pass_items "ipv6" (pass_items "ipv4" items)). split; [rewrite read_join by exact C2; exact R2|]. split; [|split].
  - apply (same_config_trans _ (pass_items "ipv4" items)); try assumption; apply pass_same; auto.
  - intros fam _. apply pass_once, O1.
  - intros fam n n' ls [<-|[<-|[]]].
    + rewrite (members_other "ipv6") by discriminate. apply pass_distinct; auto.
    + apply pass_distinct; auto.
Qed.
