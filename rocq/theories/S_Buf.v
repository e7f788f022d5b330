(** S_Buf.v: what a peer should understand, independently of the encoder. *)
From Verif Require Import Base M_Util M_Filter M_Types M_Wire S_Wire M_Buf.

(** A destination which is an IPv4 prefix *)
Definition is4 (d : dest) : bool := (d_plen d >=? 96) && v4mapped (d_prefix d).
(** A destination as found in the tables: normalised, both prefixes of the same
    family, the absence of a source prefix being 0.0.0.0/0 or ::/0. *)
Definition dest_wire (d : dest) : Prop :=
  dest_ok d /\
  (if is4 d then v4mapped (d_src d) = true /\ 96 <= d_splen d
   else ~ (d_splen d = 96 /\ v4mapped (d_src d) = true)).

(** The arguments with which messages are sent: fields in the range of their C
    types, addresses of 16 bytes, router-ids and nonces of the length of the arrays
    they come from (a challenge reply repeats the nonce of a request, of at most 192
    bytes, message.c:486).  On an interface with a key, a link-local address. *)
Definition op_ok (keyed : bool) (o : bop) : Prop :=
  match o with
  | BUpdate id d seqno metric interval => length id = 8%nat /\ bytes_ok id /\ dest_wire d /\
      0 <= seqno < 65536 /\ 0 <= metric < 65536 /\ 0 <= interval < 65536
  | BWild seqno => 0 <= seqno < 65536
  | BRequest None => True
  | BRequest (Some d) => dest_wire d
  | BMhRequest d seqno hop id => dest_wire d /\ 0 <= seqno < 65536 /\ 0 <= hop < 256 /\
      length id = 8%nat /\ bytes_ok id
  | BHello _ interval _ => 0 <= interval
  | BIhu rxcost interval a rtt => 0 <= rxcost < 65536 /\ 0 <= interval < 65536 /\ addr_ok a /\
      match rtt with Some (x, y) => 0 <= x < 4294967296 /\ 0 <= y < 4294967296 | None => True end
  | BAck nonce _ => 0 <= nonce < 65536
  | BChallenge nonce => length nonce = 8%nat /\ bytes_ok nonce
  | BReply nonce => Z.of_nat (length nonce) <= 192 /\ bytes_ok nonce
  | BFlush | BSpace _ | BClock _ | BMc _ => True
  | BIpv4 a => match a with Some x => length x = 4%nat /\ bytes_ok x | None => True end
  | BLls l => keyed = true -> l <> []
  end.

(** What a peer [c], seeing our address [r_from c], is to do about one of them.  [hello]: a Hello
    has been put in the current packet; [hseq]: the last Hello sequence number;
    [ipv4]: our IPv4 address; [v46]: we send IPv4 routes over IPv6.  The times at
    which messages are sent (timestamps) are left out. *)
Definition wanted (c : rctx) (v46 : bool) (hello : bool) (hseq : Z) (ipv4 : option (list Z)) (o : bop) : list action :=
  match o with
  | BUpdate id d seqno metric interval =>
      if is4 d then
        match ipv4 with
        | Some a => [AUpdate (Some id) d seqno metric interval (Some (v4tov6 a))]
        | None => if v46 && r_46 c then [AUpdate (Some id) d seqno metric interval (Some (r_from c))] else []
        end
      else [AUpdate (Some id) d seqno metric interval (Some (r_from c))]
  | BWild _ => [AWithdraw]
  | BRequest o => [ARequest o]
  | BMhRequest d seqno hop id => [ASeqno d hop seqno id]
  | BHello u interval force =>
      if hello && negb force then [] else [AHello u ((hseq + 1) mod 65536) (Z.min interval 65535) None]
  | BIhu rxcost interval a _ => if existsb (fun l => beq l a) (r_lls c) then [AIhu rxcost interval] else []
  | _ => []
  end.
(** The messages that are not for parse_packet: acknowledgments and challenges *)
Definition raw_wanted (o : bop) : list (Z * list Z) :=
  match o with
  | BAck nonce _ => [(3, be16 nonce)]
  | BChallenge nonce => [(18, nonce)]
  | BReply nonce => [(19, nonce)]
  | _ => []
  end.
Definition is_raw (f : Z * list Z) : bool := (fst f =? 3) || (fst f =? 18) || (fst f =? 19).

(** Without the timestamps *)
Definition untimed (l : list action) : list action :=
  flat_map (fun a => match a with
                     | AHello u q i _ => [AHello u q i None]
                     | ARtt _ _ => []
                     | _ => [a]
                     end) l.

(** The same without reference to a buffer: the Hellos apart, what is to be understood
    depends only on the messages and on our IPv4 address when they are sent; *)
Definition is_hello (a : action) : bool := match a with AHello _ _ _ _ => true | _ => false end.
Definition hello_no (a : action) : Z := match a with AHello _ q _ _ => q | _ => 0 end.
Fixpoint others_wanted (c : rctx) (v46 : bool) (ipv4 : option (list Z)) (l : list bop) : list action :=
  match l with
  | [] => []
  | BHello _ _ _ :: l => others_wanted c v46 ipv4 l
  | BIpv4 a :: l => others_wanted c v46 a l
  | o :: l => wanted c v46 false 0 ipv4 o ++ others_wanted c v46 ipv4 l
  end.
(** a Hello is always sent if forced; otherwise it may share a previous one. *)
Definition forced (o : bop) : bool := match o with BHello _ _ f => f | _ => false end.
Definition asked (o : bop) : bool := match o with BHello _ _ _ => true | _ => false end.

(** The actions of a peer that receives datagrams, one after the other *)
Definition decoded (c : rctx) (l : list (list Z)) : list action :=
  flat_map (fun pkt => match parse_packet c pkt with Ret a => a | _ => [] end) l.
Definition is_update (a : action) : bool := match a with AUpdate _ _ _ _ _ _ | AWithdraw => true | _ => false end.
Definition has_key {key : Type} (v : benv key) : bool := match v_key v with Some _ => true | None => false end.

Section Mac.
Variable key : Type.
Variable mac : key -> list Z -> option (list Z).

(** All that is to be understood, message after message *)
Fixpoint all_wanted (c : rctx) (v : benv key) (s : est) (l : list bop) : list action :=
  match l with
  | [] => []
  | o :: l => wanted c (v_46 v) (e_hello s >=? 0) (e_hseq s) (e_ipv4 s) o
              ++ all_wanted c v (bstep key mac v s o) l
  end.

(** An interface which is up: a buffer of mtu - 52 bytes with an mtu of at least 512
    (interface.c:296-311), a keyed hash which is total and of at most 32 bytes. *)
Definition env_ok (v : benv key) : Prop :=
  460 <= v_size v < 65536 /\
  (v_key v <> None -> forall k m, exists d, mac k m = Some d /\ zlen d <= 32 /\ bytes_ok d).
(** A buffer just created *)
Definition start_ok (v : benv key) (s : est) : Prop :=
  e_buf s = [] /\ e_hello s = -1 /\ e_id s = None /\ e_nh s = None /\ e_prefix s = None /\
  e_sent s = [] /\ e_bad s = false /\ length (e_index s) = 8%nat /\ bytes_ok (e_index s) /\
  match e_ipv4 s with Some x => length x = 4%nat /\ bytes_ok x | None => True end /\
  Forall (fun r => match r with Some i => length i = 8%nat /\ bytes_ok i | None => True end) (e_rndb s) /\
  (v_key v <> None -> e_lls s <> []).
End Mac.
