(** S_Dump.v: how a client reads what the control socket prints. *)
From Coq Require Import String.
From Verif Require Import Base M_Config M_Util S_Util M_Filter M_Source M_Types.
Close Scope string_scope.
Open Scope Z_scope.

(** The pieces of a text between separators. *)
Fixpoint split (sep : Z) (l : list Z) : list (list Z) :=
  match l with
  | [] => [[]]
  | c :: l' => if c =? sep then [] :: split sep l'
               else match split sep l' with x :: xs => (c :: x) :: xs | [] => [[c]] end
  end.

(** Numbers *)
Definition digit (base c v : Z) : Prop :=
  (48 <= c <= 57 /\ v = c - 48 \/ 97 <= c <= 102 /\ v = c - 87) /\ v < base.
Inductive number (base : Z) : list Z -> Z -> Prop :=
| num1 : forall c v, digit base c v -> number base [c] v
| numS : forall t x c v, number base t x -> digit base c v -> number base (t ++ [c]) (x * base + v).
(** A number of thousandths with a decimal point *)
Definition thousandths (t : list Z) (v : Z) : Prop :=
  exists a b x y, split 46 t = [a; b] /\ length b = 3%nat /\ number 10 a x /\ number 10 b y /\ v = 1000 * x + y.
(** A router-id *)
Definition eui_text (t id : list Z) : Prop := Forall2 (number 16) (split 58 t) id.
(** Addresses: IPv4 ones in dotted notation, others as inet_ntop prints them. *)
Definition v4_text (t a : list Z) : Prop := Forall2 (number 10) (split 46 t) a.
Definition addr_text (nt : list Z -> list Z) (t a : list Z) : Prop :=
  (exists b1 b2 b3 b4, a = mapped b1 b2 b3 b4 /\ v4_text t [b1; b2; b3; b4]) \/
  ((forall b1 b2 b3 b4, a <> mapped b1 b2 b3 b4) /\ t = nt a).
Definition prefix_text (nt : list Z -> list Z) (t p : list Z) (plen : Z) : Prop :=
  exists a n k, split 47 t = [a; n] /\ number 10 n k /\
  ((exists b1 b2 b3 b4, p = mapped b1 b2 b3 b4 /\ v4_text a [b1; b2; b3; b4] /\ plen = 96 + k) \/
   ((forall b1 b2 b3 b4, p = mapped b1 b2 b3 b4 -> plen < 96) /\ a = nt p /\ plen = k)).

(** What a line tells. *)
Inductive item :=
| IIf (name : list Z) (up : option (option (list Z) * option (list Z)))
| INb (ptr : Z) (addr ifname : list Z) (reach ureach rx tx : Z) (rtt : option (Z * Z)) (cost : Z)
| IXr (d : dest) (metric : Z)
| IRt (ptr : Z) (d : dest) (installed : bool) (id : list Z) (metric refmetric : Z) (via ifname : list Z).

Definition says (nt : list Z -> list Z) (kind : list Z) (line : list Z) (it : item) : Prop :=
  let ws := split 32 line in
  match it with
  | IIf name None => ws = [kind; str "interface"; name; str "up"; str "false"]
  | IIf name (Some (ll, v4)) =>
      exists l1 l2, ws = [kind; str "interface"; name; str "up"; str "true"] ++ l1 ++ l2 /\
      match ll with None => l1 = [] | Some a => exists t, l1 = [str "ipv6"; t] /\ addr_text nt t a end /\
      match v4 with None => l2 = [] | Some a => exists t, l2 = [str "ipv4"; t] /\ v4_text t a end
  | INb ptr addr ifname reach ureach rx tx rtt cost =>
      exists p a re ur r t l c,
      ws = [kind; str "neighbour"; p; str "address"; a; str "if"; ifname; str "reach"; re; str "ureach"; ur;
            str "rxcost"; r; str "txcost"; t] ++ l ++ [str "cost"; c] /\
      number 16 p ptr /\ addr_text nt a addr /\ number 16 re reach /\ number 16 ur ureach /\
      number 10 r rx /\ number 10 t tx /\ number 10 c cost /\
      match rtt with
      | None => l = []
      | Some (v, rc) => exists x y, l = [str "rtt"; x; str "rttcost"; y] /\ thousandths x v /\ number 10 y rc
      end
  | IXr d metric =>
      exists k p s m, ws = [kind; str "xroute"; k; str "prefix"; p; str "from"; s; str "metric"; m] /\
      split 45 k = [p; s] /\
      prefix_text nt p (d_prefix d) (d_plen d) /\ prefix_text nt s (d_src d) (d_splen d) /\ number 10 m metric
  | IRt ptr d installed id metric refmetric via ifname =>
      exists p a s y e m n v,
      ws = [kind; str "route"; p; str "prefix"; a; str "from"; s; str "installed"; y; str "id"; e;
            str "metric"; m; str "refmetric"; n; str "via"; v; str "if"; ifname] /\
      number 16 p ptr /\ prefix_text nt a (d_prefix d) (d_plen d) /\ prefix_text nt s (d_src d) (d_splen d) /\
      y = (if installed then str "yes" else str "no") /\ eui_text e id /\
      number 10 m metric /\ number 10 n refmetric /\ addr_text nt v via
  end.

(** What is assumed of inet_ntop(AF_INET6): at most 45 characters, none of them a blank, a
    newline, a dash or a slash, at least one colon, and different texts for different
    addresses. *)
Definition ntop_ok (nt : list Z -> list Z) : Prop :=
  forall a, addr_ok a ->
    (length (nt a) <= 45)%nat /\ In 58 (nt a) /\
    (forall c, In c (nt a) -> c <> 10 /\ c <> 32 /\ c <> 45 /\ c <> 47) /\
    (forall b, addr_ok b -> nt b = nt a -> b = a).
(** The names of interfaces: at most 15 characters, not empty, without blanks or newlines. *)
Definition name_ok (s : list Z) : Prop :=
  s <> [] /\ (length s <= 15)%nat /\ forall c, In c s -> c <> 10 /\ c <> 32.
(** The addresses in an item have 16 bytes. *)
Definition item_ok (it : item) : Prop :=
  match it with
  | IIf _ (Some (Some a, _)) => addr_ok a
  | IIf _ _ => True
  | INb _ a _ _ _ _ _ _ _ => addr_ok a
  | IXr d _ => addr_ok (d_prefix d) /\ addr_ok (d_src d)
  | IRt _ d _ _ _ _ a _ => addr_ok (d_prefix d) /\ addr_ok (d_src d) /\ addr_ok a
  end.
