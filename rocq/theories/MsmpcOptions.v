(** Proofs about the options of MS-MPC headers. *)
From Verif Require Import SpecMsmpc BaseFacts PyStrFacts.
Local Open Scope string_scope.
Local Open Scope list_scope.
Local Open Scope Z_scope.

Lemma remove_perm x l : In x l -> Permutation l (x :: ms_remove x l).
Proof.
  induction l as [|y l IH]; intros I; [destruct I|]. cbn [ms_remove]. destruct (String.eqb x y) eqn:E; [apply String.eqb_eq in E; subst; reflexivity|].
  destruct I as [->|I]; [rewrite String.eqb_refl in E; discriminate E|]. rewrite (IH I) at 1. apply perm_swap.
Qed.
Definition takes (old new : option string) (l : list string) (P : string -> string -> Prop) : Prop :=
  l = [] /\ new = old \/ exists w v, old = None /\ l = [w] /\ P w v /\ new = Some v.
Definition family_word (w v : string) : Prop := w = v /\ In v ms_families.
Definition direction_word (w v : string) : Prop := assoc w ms_directions = Some v.
Lemma family_not_direction w v : In w ms_families -> assoc w ms_directions = Some v -> False.
Proof. intros [<-|[<-|[<-|[]]]]; discriminate. Qed.
Lemma loop_sound opts : forall af dir af' dir', ms_loop af dir opts = Ok (af', dir') ->
  exists a d, Permutation opts (a ++ d) /\ takes af af' a family_word /\ takes dir dir' d direction_word.
Proof.
  induction opts as [|o opts IH]; intros af dir af' dir' H; cbn [ms_loop] in H.
  - injection H as <- <-. exists [], []. split; [constructor|]. split; left; auto.
  - destruct (str_in o ms_families) eqn:F.
    + destruct af as [x|]; [discriminate|]. destruct (IH _ _ _ _ H) as (a & d & P & A & D).
      destruct A as [(-> & ->)|(w & v & X & _)]; [|discriminate X]. exists [o], d. split; [cbn [app] in *; constructor; exact P|]. split; [|exact D].
      right. exists o, o. apply str_in_spec in F. repeat split; auto.
    + destruct (assoc o ms_directions) as [v|] eqn:G; [|discriminate]. destruct dir as [x|]; [discriminate|]. destruct (IH _ _ _ _ H) as (a & d & P & A & D).
      destruct D as [(-> & ->)|(w & v' & X & _)]; [|discriminate X]. exists a, [o]. rewrite app_nil_r in P. split; [rewrite P; apply Permutation_cons_append|]. split; [exact A|].
      right. exists o, v. repeat split; auto.
Qed.
Lemma loop_complete opts : forall af dir af' dir' a d, Permutation opts (a ++ d) -> takes af af' a family_word -> takes dir dir' d direction_word ->
  ms_loop af dir opts = Ok (af', dir').
Proof.
  induction opts as [|o opts IH]; intros af dir af' dir' a d P A D; cbn [ms_loop].
  - apply Permutation_nil in P. apply app_eq_nil in P. destruct P as (-> & ->).
    destruct A as [(_ & ->)|(w & v & _ & X & _)]; [|discriminate X]. destruct D as [(_ & ->)|(w & v & _ & X & _)]; [|discriminate X]. reflexivity.
  - assert (I : In o (a ++ d)) by (apply (Permutation_in _ P); left; reflexivity). apply in_app_iff in I.
    destruct A as [(-> & ->)|(w & v & -> & -> & (-> & F) & ->)].
    + destruct I as [[]|I]. destruct D as [(-> & _)|(w & v & -> & -> & G & ->)]; [destruct I|]. destruct I as [->|[]].
      destruct (str_in o ms_families) eqn:F; [apply str_in_spec in F; destruct (family_not_direction _ _ F G)|]. unfold direction_word in G. rewrite G.
      cbn [app] in P. apply (IH af (Some v) af (Some v) [] []); [apply (Permutation_cons_inv P)|left; auto|left; auto].
    + destruct I as [[<-|[]]|I].
      * apply str_in_spec in F. rewrite F. cbn [app] in P. apply (IH (Some v) dir (Some v) dir' [] d); [apply (Permutation_cons_inv P)|left; auto|exact D].
      * destruct D as [(-> & _)|(w & u & -> & -> & G & ->)]; [destruct I|]. destruct I as [->|[]].
        destruct (str_in o ms_families) eqn:F'; [apply str_in_spec in F'; destruct (family_not_direction _ _ F' G)|]. pose proof G as G'. unfold direction_word in G'. rewrite G'.
        apply (IH None (Some u) (Some v) (Some u) [v] []); [|right; exists v, v; repeat split; auto|left; auto].
        cbn [app] in *. apply (Permutation_cons_inv (a := o)). rewrite P. apply perm_swap.
Qed.
Lemma ms_options_spec opts af dir nv : ms_options opts = Ok (af, dir, nv) <-> documented_options opts af dir nv.
Proof.
  unfold ms_options, documented_options. split.
  - destruct (ms_loop None None (if str_in "noverbose" opts then ms_remove "noverbose" opts else opts)) as [(a', d')|e] eqn:L; cbn [bind fst snd]; [|discriminate].
    intros H. injection H as <- <- <-. destruct (loop_sound _ _ _ _ _ L) as (a & d & P & A & D).
    exists a, d, (if str_in "noverbose" opts then ["noverbose"] else []). split; [|split; [|split]].
    + destruct (str_in "noverbose" opts) eqn:V; [|rewrite app_nil_r; exact P]. apply str_in_spec in V. rewrite (remove_perm _ _ V), P, app_assoc. apply Permutation_cons_append.
    + destruct A as [(-> & ->)|(w & v & _ & -> & (-> & F) & ->)]; [left; auto|right; auto].
    + destruct D as [(-> & ->)|(w & v & _ & -> & G & ->)]; [left; auto|]. unfold direction_word in G. cbn [assoc ms_directions] in G.
      repeat match type of G with (if String.eqb ?x ?y then _ else _) = _ => destruct (String.eqb x y) eqn:? ; [match goal with E : String.eqb _ _ = true |- _ => apply String.eqb_eq in E end; injection G as <-; subst|] end; [auto..|discriminate].
    + destruct (str_in "noverbose" opts); auto.
  - intros (a & d & n & P & A & D & N).
    assert (V : str_in "noverbose" opts = nv).
    { destruct N as [(-> & ->)|(-> & ->)].
      - destruct (str_in "noverbose" opts) eqn:V; [|reflexivity]. apply str_in_spec in V. apply (Permutation_in _ P) in V. exfalso.
        destruct A as [(-> & ->)|(-> & F)], D as [(-> & _)|[(-> & _)|[(-> & _)|(-> & _)]]]; cbn in *; intuition (subst; discriminate).
      - apply str_in_spec. apply (Permutation_in _ (Permutation_sym P)). rewrite !in_app_iff. right. right. left. reflexivity. }
    rewrite V. assert (Q : Permutation (if nv then ms_remove "noverbose" opts else opts) (a ++ d)).
    { destruct N as [(-> & ->)|(-> & ->)]; [rewrite app_nil_r in P; exact P|]. apply str_in_spec in V. apply (Permutation_cons_inv (a := "noverbose")).
      rewrite <- (remove_perm _ _ V), P, app_assoc. symmetry. apply Permutation_cons_append. }
    assert (A' : exists a', takes None a' a family_word /\ match a' with Some x => x | None => "mixed" end = af).
    { destruct A as [(-> & ->)|(-> & F)]; [exists None; split; [left; auto|reflexivity]|exists (Some af); split; [right; exists af, af; repeat split; auto|reflexivity]]. }
    assert (D' : exists d', takes None d' d direction_word /\ match d' with Some x => x | None => "input-output" end = dir).
    { destruct D as [(-> & ->)|[(-> & ->)|[(-> & ->)|(-> & ->)]]]; [exists None; split; [left; auto|reflexivity]|..]; (eexists (Some _); split; [right; do 2 eexists; repeat split; reflexivity|reflexivity]). }
    destruct A' as (a' & A' & <-). destruct D' as (d' & D' & <-). rewrite (loop_complete _ _ _ _ _ _ _ Q A' D'). reflexivity.
Qed.
