(** Model of capirca/lib/summarizer.py: summarisation with discontinuous masks. *)
From Verif Require Export ModelIP.
Local Open Scope Z_scope.

(** summarizer.py:22-39 DSMNet *)
Record dsm := mkDsm { daddr : Z; dmask : Z; dtext : string }.

(** summarizer.py:85-101 DSMNet.MergeText *)
Definition merge_text (d : dsm) (text : string) : string :=
  if negb (is_empty (dtext d)) then
    if negb (is_empty text) && negb (substring_of text (dtext d))
    then append (dtext d) (append ", " text)
    else dtext d
  else text.

(** summarizer.py:176-191 _NacaddrNetToDSMNet *)
Definition dsm_of_net (n : net) : dsm :=
  mkDsm (naddr n) (Z.shiftl (Z.shiftl 1 (nlen n) - 1) (width (nver n) - nlen n)) (ntext n).

(** summarizer.py:258-263: the pair test *)
Definition is_pair (c p : dsm) : bool :=
  let x := Z.lxor (daddr c) (daddr p) in
  (dmask c =? dmask p) && (Z.land x (x - 1) =? 0) && (0 <? x).

(** summarizer.py:257-267: first partner of [c] in the list, and the list without it. *)
Fixpoint find_pair (c : dsm) (l : list dsm) : option (dsm * list dsm) :=
  match l with
  | [] => None
  | p :: l' =>
      if is_pair c p then Some (p, l')
      else match find_pair c l' with
           | Some (q, r) => Some (q, p :: r)
           | None => None
           end
  end.

(** summarizer.py:268-273: the paired-up network *)
Definition join_pair (c p : dsm) : dsm :=
  mkDsm (Z.min (daddr c) (daddr p)) (Z.lxor (dmask c) (Z.lxor (daddr c) (daddr p)))
        (merge_text c (dtext p)).

(** summarizer.py:254-276: one pass over [current_nets]; [singles] and [combos] are
    accumulated in order.  Each step removes at least one element, so the length
    of the list bounds the number of steps. *)
Fixpoint sum_pass (fuel : nat) (current singles combos : list dsm) : res (list dsm * list dsm) :=
  match current with
  | [] => Ok (singles, combos)
  | c :: rest =>
      match fuel with
      | O => Raise OutOfFuel
      | S fuel' =>
          match find_pair c rest with
          | Some (p, rest') => sum_pass fuel' rest' singles (combos ++ [join_pair c p])
          | None => sum_pass fuel' rest (singles ++ [c]) combos
          end
      end
  end.

(** summarizer.py:251-277: the outer loop; every round at least halves the list. *)
Fixpoint sum_rounds (fuel : nat) (combos singles : list dsm) : res (list dsm) :=
  match combos with
  | [] => Ok singles
  | _ =>
      match fuel with
      | O => Raise OutOfFuel
      | S fuel' =>
          let! (singles', combos') := sum_pass (List.length combos) combos singles [] in
          sum_rounds fuel' combos' singles'
      end
  end.

(** summarizer.py:236-277 _SummarizeSameMask *)
Definition summarize_same_mask (nets : list dsm) : res (list dsm) :=
  sum_rounds (List.length nets) nets [].

(** summarizer.py:227-231: dict of lists keyed by prefix length, insertion order. *)
Fixpoint add_group (k : Z) (d : dsm) (g : list (Z * list dsm)) : list (Z * list dsm) :=
  match g with
  | [] => [(k, [d])]
  | (k', l) :: g' => if k =? k' then (k', l ++ [d]) :: g' else (k', l) :: add_group k d g'
  end.
(** summarizer.py:227-231 *)
Definition group_by_len (nets : list net) : list (Z * list dsm) :=
  fold_left (fun g n => add_group (nlen n) (dsm_of_net n) g) nets [].

(** DSMNet.__lt__ compares addresses only (summarizer.py:66-72); sorted() is stable. *)
Definition dsm_leb (a b : dsm) : bool := daddr a <=? daddr b.

(** summarizer.py:213-233 Summarize *)
Definition summarize (nets : list net) : res (list dsm) :=
  let! optimized := collapse_addr_list nets [] in
  let! parts := mapM (fun g => summarize_same_mask (snd g)) (group_by_len optimized) in
  Ok (py_sorted dsm_leb (concat parts)).

(** summarizer.py:158-173 _Int32ToDottedQuad: four times [num & 0xFF], [num >>= 8]. *)
Definition int32_to_dotted_quad (num : Z) : string :=
  let o k := dec (Z.land (Z.shiftr num k) 255) in
  join "." [o 24; o 16; o 8; o 0].

(** summarizer.py:135-155 _PrefixlenForNonDSM.  The binary text is replaced by bit
    tests: for 0 <= intmask < 2^32 the 32 characters are the bits from 31 down to
    0; a negative number starts with '-', so no leading ones are counted and the
    remainder is non-zero. [leading_ones] counts leading ones below bit [k]. *)
Fixpoint leading_ones (k : nat) (m : Z) : Z :=
  match k with
  | O => 0
  | S k' => if Z.testbit m (Z.of_nat k') then 1 + leading_ones k' m else 0
  end.
(** summarizer.py:135-155 *)
Definition prefixlen_for_nondsm (intmask : Z) : string :=
  let dotmask := int32_to_dotted_quad intmask in
  if String.eqb dotmask "255.255.255.255" then "32"
  else if intmask <? 0 then dotmask
  else
    let p := leading_ones 32 intmask in
    if Z.land intmask (Z.ones (32 - p)) =? 0 then dec p else dotmask.

(** summarizer.py:104-132 ToDottedQuad *)
Definition to_dotted_quad (d : dsm) (negate nondsm : bool) : res (string * string) :=
  if 32 <? bit_length (Z.abs (daddr d)) then Raise (Exn "ValueError")
  else if negb ((bit_length (Z.abs (dmask d)) =? 0) || (bit_length (Z.abs (dmask d)) =? 32))
  then Raise (Exn "ValueError")
  else
    let netmask := if negate then Z.lnot (dmask d) else dmask d in
    Ok (int32_to_dotted_quad (daddr d),
        if nondsm then prefixlen_for_nondsm netmask else int32_to_dotted_quad netmask).
