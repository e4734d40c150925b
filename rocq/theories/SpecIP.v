(** Specification vocabulary for networks: which addresses a network covers.
    Independent of how the code computes (no masks, no bit operations). *)
From Coq Require Export Sorted.
From Verif Require Export ModelIP SpecBase.
Local Open Scope Z_scope.

(** An IP address: its family and its integer value. *)
Definition ipaddr : Type := ver * Z.

(** Number of addresses of a network. *)
Definition size (n : net) : Z := 2 ^ (width (nver n) - nlen n).

(** The network covers the address. *)
Definition covers (n : net) (x : ipaddr) : Prop :=
  nver n = fst x /\ naddr n <= snd x < naddr n + size n.

(** Some network of the list covers the address. *)
Definition covered (l : list net) (x : ipaddr) : Prop :=
  exists n, In n l /\ covers n x.

(** What [ipaddress.ip_network(..., strict=True)] accepts: a prefix length of the
    family and a network address in range with no host bits set. *)
Definition valid (n : net) : Prop :=
  0 <= nlen n <= width (nver n) /\
  0 <= naddr n < 2 ^ width (nver n) /\
  (size n | naddr n).

Definition valid_list (l : list net) : Prop := Forall valid l.

(** The prefix of a network, without comment and tokens. *)
Definition prefix_of (n : net) : ver * Z * Z := (nver n, naddr n, nlen n).

(** Two networks share no address. *)
Definition disjoint (a b : net) : Prop := forall x, covers a x -> covers b x -> False.

(** Two networks are the two halves of one prefix. *)
Definition siblings (a b : net) : Prop :=
  nver a = nver b /\ nlen a = nlen b /\ 0 < nlen a /\
  exists base, (2 * size a | base) /\
    ((naddr a = base /\ naddr b = base + size a) \/
     (naddr b = base /\ naddr a = base + size a)).

(** Strictly before: earlier family, or same family and all addresses smaller. *)
Definition before (a b : net) : Prop :=
  ver_num (nver a) < ver_num (nver b) \/
  (nver a = nver b /\ naddr a + size a <= naddr b).

(** Order by family, then network address, then prefix length. *)
Definition key_le (a b : net) : Prop :=
  ver_num (nver a) < ver_num (nver b) \/
  (nver a = nver b /\ (naddr a < naddr b \/ (naddr a = naddr b /\ nlen a <= nlen b))).

(** The canonical form: ascending, disjoint, nothing joinable. *)
Definition canonical (l : list net) : Prop :=
  StronglySorted before l /\
  forall a b, In a l -> In b l -> ~ siblings a b.

(** Most-specific matching, excludes winning ties (as in the docstring of
    CollapseAddrList and juniper.py:725-727). *)
Definition specific_match (inc exc : list net) (x : ipaddr) : Prop :=
  exists n, In n inc /\ covers n x /\
    forall e, In e exc -> covers e x -> nlen e < nlen n.

(** Pairwise disjoint, as positions of the list. *)
Inductive pairwise_disjoint : list net -> Prop :=
| pd_nil : pairwise_disjoint []
| pd_cons a l : Forall (disjoint a) l -> pairwise_disjoint l -> pairwise_disjoint (a :: l).
