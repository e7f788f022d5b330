(** S_Rule.v: filter rules as the manual describes them (babeld.man, "Filtering rules"), and
    the text of a line. *)
From Coq Require Import String.
From Verif Require Import Base M_Util S_Util M_Filter S_Filter M_Config S_Config S_Dump.
Close Scope string_scope.
Open Scope Z_scope.

(** ** Words on a line *)
(** A word that needs no quotes. *)
Definition word_ok (w : list Z) : Prop :=
  w <> [] /\ (length w <= 255)%nat /\ hd 0 w <> 34 /\
  forall c, In c w -> 0 < c /\ ~ blank c /\ c <> 10 /\ c <> 35.
(** The words [ws], with blanks before, between and after them, a comment perhaps, and an
    end of line. *)
Inductive spaced : list (list Z) -> list Z -> Prop :=
| sp_end : forall l, empty_line l -> Forall (fun c => 0 <= c) l -> spaced [] l
| sp_word : forall b w ws l, Forall blank b -> word_ok w -> spaced ws l ->
    (exists c l', l = c :: l' /\ (blank c \/ c = 10 \/ c = 35)) -> spaced (w :: ws) (b ++ w ++ l).

(** ** Clauses *)
Inductive addr := A4 (b1 b2 b3 b4 : Z) | A6 (a : list Z).
Definition addr_bytes (a : addr) : list Z := match a with A4 b1 b2 b3 b4 => mapped b1 b2 b3 b4 | A6 a => a end.
Definition addr_good (a : addr) : Prop := addr_ok (addr_bytes a).
Inductive net := Net (a : addr) (len : Z).
Definition is4 (a : addr) : bool := match a with A4 _ _ _ _ => true | A6 _ => false end.
Definition net4 (n : net) : bool := match n with Net a _ => is4 a end.
Definition net_good (n : net) : Prop := match n with Net a l => addr_good a /\ 0 <= l <= (if is4 a then 32 else 128) end.
(** The length counted in the IPv6 form of the prefix *)
Definition net_len (n : net) : Z := match n with Net a l => (if is4 a then 96 else 0) + l end.
Definition net_addr (n : net) : list Z := match n with Net a _ => addr_bytes a end.

Inductive clause :=
| CIp (n : net) | CEq (l : Z) | CLe (l : Z) | CGe (l : Z)
| CSrcIp (n : net) | CSrcEq (l : Z) | CSrcLe (l : Z) | CSrcGe (l : Z)
| CNeigh (a : addr) | CId (i : list Z) | CProto (n : Z) | CLocal | CIf (name : list Z)
| CAllow | CDeny | CMetric (v : Z) | CSrcPrefix (n : net) | CTable (v : Z) | CPrefSrc (a : addr).
Definition clause_ok (c : clause) : Prop :=
  match c with
  | CIp n | CSrcIp n | CSrcPrefix n => net_good n
  | CEq l | CLe l | CGe l | CSrcEq l | CSrcLe l | CSrcGe l => 0 <= l <= 128
  | CNeigh a | CPrefSrc a => addr_good a
  | CId i => id_ok i
  | CProto n => 0 < n < 2147483648
  | CMetric v | CTable v => 1 <= v <= 65535
  | _ => True
  end.

(** ** Texts *)
Definition num_text (t : list Z) (v : Z) : Prop := number 10 t v /\ (t = [48] \/ hd 0 t <> 48).
Definition raddr (e : env) (t : list Z) (a : addr) : Prop :=
  match a with
  | A4 b1 b2 b3 b4 => e_pton4 e t = Some [b1; b2; b3; b4]
  | A6 a => e_pton4 e t = None /\ e_pton6 e t = Some a
  end.
Definition rnet (e : env) (t : list Z) (n : net) : Prop :=
  match n with Net a l =>
    (exists x k, t = x ++ 47 :: k /\ ~ In 47 x /\ (length x < 46)%nat /\ raddr e x a /\ num_text k l) \/
    (~ In 47 t /\ t <> str "default" /\ raddr e t a /\ l = (if is4 a then 32 else 128)) \/
    (t = str "default" /\ a = A6 (repeat 0 16) /\ l = 0)
  end.
Definition words_of (e : env) (c : clause) (ws : list (list Z)) : Prop :=
  match c with
  | CIp n => exists t, ws = [str "ip"; t] /\ rnet e t n
  | CEq l => exists t, ws = [str "eq"; t] /\ num_text t l
  | CLe l => exists t, ws = [str "le"; t] /\ num_text t l
  | CGe l => exists t, ws = [str "ge"; t] /\ num_text t l
  | CSrcIp n => exists t, ws = [str "src-ip"; t] /\ rnet e t n
  | CSrcEq l => exists t, ws = [str "src-eq"; t] /\ num_text t l
  | CSrcLe l => exists t, ws = [str "src-le"; t] /\ num_text t l
  | CSrcGe l => exists t, ws = [str "src-ge"; t] /\ num_text t l
  | CNeigh a => exists t, ws = [str "neigh"; t] /\ raddr e t a
  | CId i => ws = [str "id"; format_eui64 i]
  | CProto n => exists t, ws = [str "proto"; t] /\ num_text t n
  | CLocal => ws = [str "local"]
  | CIf name => ws = [str "if"; name]
  | CAllow => ws = [str "allow"]
  | CDeny => ws = [str "deny"]
  | CMetric v => exists t, ws = [str "metric"; t] /\ num_text t v
  | CSrcPrefix n => exists t, ws = [str "src-prefix"; t] /\ rnet e t n
  | CTable v => exists t, ws = [str "table"; t] /\ num_text t v
  | CPrefSrc a => exists t, ws = [str "pref-src"; t] /\ raddr e t a
  end.

(** ** Meaning *)
(** The family a clause speaks about *)
Definition family_of (c : clause) : option bool :=
  match c with
  | CIp n | CSrcIp n | CSrcPrefix n => Some (net4 n)
  | CPrefSrc a => Some (is4 a)
  | _ => None
  end.
(** Lengths that exclude some prefixes *)
Definition restricts (c : clause) : Prop :=
  match c with
  | CEq _ | CSrcEq _ => True
  | CLe l | CSrcLe l => l < 128
  | CGe l | CSrcGe l => 0 < l
  | _ => False
  end.
(** The family of a rule ([true]: IPv4): that of its clauses; IPv6 if only lengths are
    given; none if nothing tells. *)
Definition family (cs : list clause) (o : option bool) : Prop :=
  match o with
  | Some b => (forall c x, In c cs -> family_of c = Some x -> x = b) /\
      ((exists c, In c cs /\ family_of c = Some b) \/
       (b = false /\ (forall c, In c cs -> family_of c = None) /\ exists c, In c cs /\ restricts c))
  | None => forall c, In c cs -> family_of c = None /\ ~ restricts c
  end.
(** Clauses of which only the last one counts. *)
Definition ckind (c : clause) : Z :=
  match c with
  | CIp _ => 1 | CSrcIp _ => 2 | CNeigh _ => 3 | CId _ => 4 | CProto _ | CLocal => 5 | CIf _ => 6
  | CAllow | CDeny | CMetric _ => 7 | CSrcPrefix _ => 8 | CTable _ => 9 | CPrefSrc _ => 10
  | _ => 0
  end.
Definition in_force (cs : list clause) (c : clause) : Prop :=
  exists a b, cs = a ++ c :: b /\ (ckind c = 0 \/ forall x, In x b -> ckind x <> ckind c).
(** What a selector says of a route; [v4]: in a rule about IPv4 *)
Definition holds (e : env) (v4 : bool) (c : clause) (id : option (list Z)) (d : dest) (neigh : option (list Z)) (ifindex proto : Z) : Prop :=
  let len l := (if v4 then 96 else 0) + l in
  match c with
  | CIp n => inside (d_prefix d) (d_plen d) (net_addr n) (net_len n)
  | CEq l => d_plen d = len l
  | CLe l => d_plen d <= len l
  | CGe l => len l <= d_plen d
  | CSrcIp n => inside (d_src d) (d_splen d) (net_addr n) (net_len n)
  | CSrcEq l => d_splen d = len l
  | CSrcLe l => d_splen d <= len l
  | CSrcGe l => len l <= d_splen d
  | CNeigh a => neigh = Some (addr_bytes a)
  | CId i => id = Some i
  | CProto n => proto = n
  | CLocal => proto = -2
  | CIf name => e_ifindex e name <> 0 /\ ifindex = e_ifindex e name
  | _ => True
  end.
Definition applies (e : env) (cs : list clause) (id : option (list Z)) (d : dest) (neigh : option (list Z)) (ifindex proto : Z) : Prop :=
  exists o, family cs o /\ (o = Some true -> is_ipv4 d) /\ (o = Some false -> ~ is_ipv4 d) /\
  (forall c, in_force cs c -> holds e (match o with Some b => b | None => false end) c id d neigh ifindex proto) /\
  ((forall c, In c cs -> ckind c <> 5) -> proto <> -2 /\ proto <> 3).
(** What a rule does *)
Definition does (cs : list clause) (r : filter_result) : Prop :=
  (forall c, in_force cs c ->
    match c with
    | CAllow => fr_add_metric r = 0
    | CDeny => fr_add_metric r = 65535
    | CMetric v => fr_add_metric r = v
    | CSrcPrefix n => exists p, fr_src r = Some (p, net_len n) /\ addr_ok p /\ same_bits (net_len n) p (net_addr n) /\
                        forall i, net_len n <= i < 128 -> abit p i = false
    | CTable v => fr_table r = v
    | CPrefSrc a => fr_pref_src r = Some (addr_bytes a)
    | _ => True
    end) /\
  ((forall c, In c cs -> ckind c <> 7) -> fr_add_metric r = 0) /\
  ((forall c, In c cs -> ckind c <> 8) -> fr_src r = None) /\
  ((forall c, In c cs -> ckind c <> 9) -> fr_table r = 0) /\
  ((forall c, In c cs -> ckind c <> 10) -> fr_pref_src r = None).
(** Destinations of one family: the source prefix of an IPv4 route is an IPv4 one. *)
Definition one_family (d : dest) : Prop := is_ipv4 d -> 96 <= d_splen d.

(** ** Lines and files *)
(** The four chains of rules *)
Definition rule_words (kw : list Z) (which : Z) : Prop :=
  In (kw, which) [(str "in", 0); (str "out", 1); (str "redistribute", 2); (str "install", 3)].
Definition chain (which : Z) (g : cfg) : list filt :=
  if which =? 0 then g_in g else if which =? 1 then g_out g else if which =? 2 then g_redist g else if which =? 3 then g_inst g else [].
(** The text of a rule of a chain *)
Definition rule_text (e : env) (r : Z * list clause) (line : list Z) : Prop :=
  exists kw wss, rule_words kw (fst r) /\ Forall clause_ok (snd r) /\ Forall2 (words_of e) (snd r) wss /\ spaced (kw :: concat wss) line.
Definition rule_good (r : Z * list clause) : Prop := exists o, family (snd r) o.
Definition rules_of (which : Z) (rs : list (Z * list clause)) : list (list clause) :=
  map snd (filter (fun r => fst r =? which) rs).
(** The first rule that applies decides; [dv] if there is none. *)
Definition verdict (e : env) (css : list (list clause)) (dv : Z) id d neigh ifindex proto (v : Z) (r : filter_result) : Prop :=
  (exists a cs b, css = a ++ cs :: b /\ (forall x, In x a -> ~ applies e x id d neigh ifindex proto) /\
     applies e cs id d neigh ifindex proto /\ does cs r /\ v = fr_add_metric r) \/
  ((forall cs, In cs css -> ~ applies e cs id d neigh ifindex proto) /\ v = dv /\ r = res0).
(** Everything but the chains *)
Definition same_rest (g g' : cfg) : Prop :=
  g_final g' = g_final g /\ g_write g' = g_write g /\ g_ifs g' = g_ifs g /\ g_default g' = g_default g /\
  g_keys g' = g_keys g /\ g_log g' = g_log g /\ g_abort g' = g_abort g.
