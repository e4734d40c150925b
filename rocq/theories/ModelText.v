(** Texts of addresses and networks, as printed by Python's ipaddress module through
    nacaddr (capirca/lib/nacaddr.py subclasses IPv4Network and IPv6Network and does not
    override the printing of addresses). *)
From Verif Require Export ModelSum ModelIP PyStr.
Local Open Scope string_scope.
Local Open Scope list_scope.
Local Open Scope Z_scope.

(** '%x' % n *)
Definition hex_char (d : Z) : ascii :=
  ascii_of_nat (if d <? 10 then 48 + Z.to_nat d else 87 + Z.to_nat d).
(** '%x' % n, digit by digit (ipaddress._string_from_ip_int) *)
Fixpoint hex_loop (fuel : nat) (n : Z) (acc : string) : string :=
  match fuel with
  | O => acc
  | S fuel' =>
      let acc' := String (hex_char (n mod 16)) acc in
      if n / 16 =? 0 then acc' else hex_loop fuel' (n / 16) acc'
  end.
(** '%x' % n (ipaddress._string_from_ip_int) *)
Definition hex (n : Z) : string := hex_loop (S (Z.to_nat (Z.log2 n))) n "".

(** ipaddress._compress_hextets: the longest run of '0' (the first of several). The
    arguments are the index, the current run and the best run so far (start, length;
    start -1 for none). *)
Fixpoint best_run (l : list string) (i start len bstart blen : Z) : Z * Z :=
  match l with
  | [] => (bstart, blen)
  | h :: l' =>
      if String.eqb h "0" then
        let len := len + 1 in
        let start := if start =? -1 then i else start in
        if blen <? len then best_run l' (i + 1) start len start len
        else best_run l' (i + 1) start len bstart blen
      else best_run l' (i + 1) (-1) 0 bstart blen
  end.
(** ipaddress._compress_hextets *)
Definition compress_hextets (hextets : list string) : list string :=
  let (bstart, blen) := best_run hextets 0 (-1) 0 (-1) 0 in
  if 1 <? blen then
    let e := bstart + blen in
    let h := if e =? Zlen hextets then hextets ++ [""%string] else hextets in
    let h := firstn (Z.to_nat bstart) h ++ [""%string] ++ skipn (Z.to_nat e) h in
    if bstart =? 0 then ""%string :: h else h
  else hextets.
(** The eight groups of 16 bits. *)
Definition hextets (n : Z) : list Z :=
  map (fun k => Z.land (Z.shiftr n k) 65535) [112; 96; 80; 64; 48; 32; 16; 0].
(** str() of an address *)
Definition addr_text (v : ver) (a : Z) : string :=
  match v with
  | V4 => int32_to_dotted_quad a
  | V6 => join ":" (compress_hextets (map hex (hextets a)))
  end.
(** with_prefixlen, also str() of a network *)
Definition prefixlen_text (n : net) : string :=
  append (addr_text (nver n) (naddr n)) (append "/" (dec (nlen n))).
