(** Lines of iptables rules put together, and blocks of lines in one chain. *)
From Coq Require Import Lia ZifyBool ZifyNat.
From Verif Require Import SpecIptables BaseFacts PyStrFacts TextProofs CiscoProofs CiscoProofs2 CiscoTerm CiscoAcl WrapProofs IptText IPFacts IptProofs.
Local Open Scope string_scope.
Local Open Scope list_scope.
Local Open Scope Z_scope.

(** A condition and what the rule does. *)
Definition clause : Type := ((packet -> Prop) * option string)%type.
Definition line_says (T : packet -> Prop) (v : ver) (chain line : string) (x : clause) : Prop :=
  line <> "" /\ has_char newline line = false /\
  exists r, read_line v line = Some (Rule chain r) /\ r_target r = snd x /\ forall p, T p -> meets r p <-> fst x p.
Lemma also_all cs c t : fold_right also (Some (mkRule c t)) cs = Some (mkRule (cs ++ c) t).
Proof. induction cs as [|x cs IH]; [reflexivity|]. cbn [fold_right app]. rewrite IH. reflexivity. Qed.
Lemma rule_words v line chain ws r : words line ("-A" :: chain :: ws) -> starts_with "#" line = false -> read_rule v rd_start ws = Some r ->
  read_line v line = Some (Rule chain r).
Proof. intros (_ & W & _) H R. unfold read_line. rewrite H, W. change (String.eqb "-A" "-A") with true. cbv iota. unfold rd_start in R. rewrite R. reflexivity. Qed.
Lemma Forall2_words_app a b A B : Forall2 words a A -> Forall2 words b B -> Forall2 words (a ++ b) (A ++ B).
Proof. apply Forall2_app. Qed.
Lemma append_words chain : plain_arg chain -> words ("-A " ++ chain)%string ["-A"; chain].
Proof. intros P. apply (words_key "-A" chain); [reflexivity|reflexivity|apply words_plain, P]. Qed.
Lemma starts_append a b : starts_with "#" ("-A " ++ a ++ b)%string = false.
Proof. reflexivity. Qed.
Lemma join_head_starts x l : starts_with "#" (join " " (("-A " ++ x)%string :: l)) = false /\ join " " (("-A " ++ x)%string :: l) <> "".
Proof. destruct l; split; cbn; first [reflexivity|discriminate]. Qed.
Lemma rule_line T v chain vals cond st action tgt rest : pieces T v rd_start vals cond st -> plain_arg chain -> words action ("-j" :: tgt :: rest) ->
  line_says T v chain (join " " ((("-A " ++ chain)%string :: filter nonempty vals) ++ [action])) (cond, Some tgt).
Proof.
  intros P C A. destruct (pieces_words _ _ _ _ _ _ P) as (L & cs & W & R & M). destruct (words_filter _ _ W) as (L' & W' & E).
  assert (Wd : words (join " " ((("-A " ++ chain)%string :: filter nonempty vals) ++ [action])) ("-A" :: chain :: concat L ++ "-j" :: tgt :: rest)).
  { pose proof (words_join (("-A " ++ chain)%string :: filter nonempty vals ++ [action]) (["-A"; chain] :: L' ++ ["-j" :: tgt :: rest])) as X.
    cbn [concat] in X. rewrite concat_app, E in X. cbn [concat] in X. rewrite app_nil_r in X. apply X. constructor; [apply append_words, C|].
    apply Forall2_app; [exact W'|]. constructor; [exact A|constructor]. }
  split; [apply join_head_starts|]. split; [apply Wd|]. exists (mkRule cs (Some tgt)). split; [|split; [reflexivity|exact M]].
  eapply rule_words; [exact Wd|apply join_head_starts|]. rewrite R. cbn [read_rule]. change (String.eqb "-j" "-j") with true. cbv iota.
  rewrite also_all, app_nil_r. reflexivity.
Qed.
Definition lines_say (T : packet -> Prop) (v : ver) (chain : string) : list string -> list clause -> Prop := Forall2 (line_says T v chain).

(** A block of rules that all send packets to one target, or log them: it sends the packets
    that meet the condition. *)
Definition part (T : packet -> Prop) (v : ver) (chain target : string) (lines : list string) (cond : packet -> Prop) : Prop :=
  exists l, lines_say T v chain lines l /\ (forall c t, In (c, t) l -> t = Some "LOG" \/ t = Some target) /\
    forall p, T p -> (exists c, In (c, Some target) l /\ c p) <-> cond p.
Lemma part_iff (T : packet -> Prop) v chain target lines (c d : packet -> Prop) : (forall p, T p -> c p <-> d p) -> part T v chain target lines c -> part T v chain target lines d.
Proof. intros E (l & A & B & C). exists l. split; [exact A|]. split; [exact B|]. intros p Tp. rewrite (C p Tp). apply E, Tp. Qed.
Lemma part_nil T v chain target : part T v chain target [] (fun _ => False).
Proof. exists []. split; [constructor|]. split; [intros c t []|]. intros p _. split; [intros (c & [] & _)|intros []]. Qed.
Lemma part_app T v chain target a c b d : part T v chain target a c -> part T v chain target b d -> part T v chain target (a ++ b) (fun p => c p \/ d p).
Proof.
  intros (l & A1 & A2 & A3) (m & B1 & B2 & B3). exists (l ++ m). split; [apply Forall2_app; assumption|]. split.
  - intros x t I. apply in_app_or in I. destruct I as [I|I]; eauto.
  - intros p Tp. rewrite <- (A3 p Tp), <- (B3 p Tp). split.
    + intros (x & I & X). apply in_app_or in I. destruct I as [I|I]; [left|right]; exists x; auto.
    + intros [(x & I & X)|(x & I & X)]; exists x; (split; [apply in_or_app; auto|exact X]).
Qed.
Lemma part_flat_map {A} (T : packet -> Prop) v chain target (f : A -> list string) (c : A -> packet -> Prop) l : (forall a, In a l -> part T v chain target (f a) (c a)) ->
  part T v chain target (flat_map f l) (fun p => exists a, In a l /\ c a p).
Proof.
  induction l as [|a l IH]; intros H.
  - eapply part_iff; [|apply part_nil]. intros p _. split; [intros []|intros (a & [] & _)].
  - cbn [flat_map]. eapply part_iff; [|apply part_app; [apply H; left; reflexivity|apply IH; intros x I; apply H; right; exact I]].
    intros p _. split.
    + intros [X|(x & I & X)]; [exists a; split; [left; reflexivity|exact X]|exists x; split; [right; exact I|exact X]].
    + intros (x & [<-|I] & X); [left; exact X|right; exists x; auto].
Qed.
(** The rule with its log rule before it. *)
Definition chain_action (v : ver) (action tgt : string) : Prop := In action
  ["-j ACCEPT"; "-j DROP"; "-j REJECT --reject-with icmp-host-prohibited"; "-j REJECT --reject-with icmp6-adm-prohibited"; "-j REJECT --reject-with tcp-reset"; "-j RETURN"]
  /\ exists rest, split_ws action = "-j" :: tgt :: rest.
Lemma action_words v action tgt : chain_action v action tgt -> exists rest, words action ("-j" :: tgt :: rest).
Proof.
  intros (I & rest & E). exists rest. rewrite <- E. apply words_simple. cbn [In] in I. repeat destruct I as [<-|I]; try reflexivity. destruct I.
Qed.
Lemma rule_part T v chain vals cond st action tgt (logged : bool) name : pieces T v rd_start vals cond st -> plain_arg chain -> chain_action v action tgt -> plain_arg name ->
  tgt <> "LOG" ->
  let rval := ("-A " ++ chain)%string :: filter nonempty vals in
  part T v chain tgt ((if logged then [join " " (rval ++ [append "-j LOG --log-prefix " name])] else []) ++ [join " " (rval ++ [action])]) cond.
Proof.
  intros P C A N NL rval. destruct (action_words _ _ _ A) as (rest & W).
  pose proof (rule_line T v chain vals cond st action tgt rest P C W) as R. fold rval in R. destruct logged.
  - assert (WL : words ("-j LOG --log-prefix " ++ name)%string ("-j" :: "LOG" :: ["--log-prefix"; name])).
    { apply (words_cat "-j LOG --log-prefix" name ["-j"; "LOG"; "--log-prefix"] [name]); [apply lit_words; reflexivity|apply words_plain, N]. }
    pose proof (rule_line T v chain vals cond st _ "LOG" _ P C WL) as RL. fold rval in RL.
    exists [(cond, Some "LOG"); (cond, Some tgt)]. split; [constructor; [exact RL|constructor; [exact R|constructor]]|]. split.
    + intros c t [E|[E|[]]]; inversion E; auto.
    + intros p _. split; [|intros X; exists cond; split; [right; left; reflexivity|exact X]].
      intros (c & [E|[E|[]]] & X); inversion E; subst; auto.
  - exists [(cond, Some tgt)]. split; [constructor; [exact R|constructor]|]. split.
    + intros c t [E|[]]. inversion E; auto.
    + intros p _. split; [intros (c & [E|[]] & X); inversion E; subst; exact X|intros X; exists cond; split; [left; reflexivity|exact X]].
Qed.
