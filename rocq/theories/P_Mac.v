(** P_Mac.v: C78, the MAC of a packet is that of RFC 8967 with the secret of the configuration. *)
From Coq Require Import String.
From Verif Require Import Base M_Util S_Util M_Filter S_Filter M_Config S_Config L_Config L_Config2 L_Config3 S_Dump S_Rule L_Rule P_Rule S_Line L_Line P_Line M_Keys M_Types M_Wire M_Auth P_Auth M_Mac S_Mac L_Mac.
From Coq Require Import Lia.
Close Scope string_scope.
Open Scope Z_scope.

(** A key with the secret of a key line: HMAC-SHA256 by RFC 2104 over the pseudo-header, the
    header and the body, or keyed BLAKE2s over the same. *)
Theorem C78_mac : forall sha blake port src dst header body k ty v, digests sha blake -> 0 <= port < 65536 -> key_good ty v ->
  k_type k = ty -> k_value k = secret ty v ->
  compute_mac sha blake port src dst header body k = Some (rfc_mac sha blake ty v (signed_bytes src dst port header body)).
Proof.
  intros sha blake port src dst header body k ty v Hd P (Nv & G) Ht Hv. rewrite compute_is by assumption. unfold mac_of. rewrite Ht, Hv.
  assert (Lv : (1 <= length v)%nat) by (destruct v; [now destruct Nv|cbn; lia]). unfold secret.
  destruct G as [(-> & L)|(-> & L)]; cbn [Z.eqb Pos.eqb].
  - rewrite app_length, repeat_length. replace (Z.of_nat (length v + (64 - length v)) =? 64) with true by lia.
    unfold rfc_mac. cbn [Z.eqb Pos.eqb]. now rewrite hmac_padded.
  - replace (1 <=? Z.of_nat (length v)) with true by lia. replace (Z.of_nat (length v) <=? 32) with true by lia. reflexivity.
Qed.
Print Assumptions C78_mac.

Lemma file_keys_good : forall e ls ts id ty v, file_text e ls ts -> In (id, ty, v) (keys ls) -> key_good ty v.
Proof.
  intros e ls ts id ty v (L & T) H. unfold keys in H. apply in_concat in H. destruct H as (q & Hq & Hi). apply in_map_iff in Hq. destruct Hq as (l & <- & Hl).
  apply in_split in Hl. destruct Hl as (a & b & E).
  assert (Lt : (length a < length ts)%nat) by (rewrite L, E, app_length; cbn [length]; lia).
  destruct (nth_error ts (length a)) as [t|] eqn:Et; [|apply nth_error_None in Et; lia].
  pose proof (T a l b t E Et) as Q. destruct l; try contradiction. destruct Hi as [Hi|[]]. injection Hi as -> -> ->.
  destruct Q as (ws & G & _). exact G.
Qed.

(** So for every documented file: the last line for a key gives the secret that signs. *)
Theorem C78_file : forall sha blake e ls ts p port, digests sha blake -> 0 <= port < 65536 ->
  file_text e ls ts -> (forall x, In x (concat ts) -> 0 <= x) -> fresh (p_cfg p) -> Z.of_nat (named ls) <= 65535 ->
  exists p', from_file e (concat ts) p = (true, p') /\
  forall id ty v, last_of (defines id) (keys ls) (ty, v) ->
  exists k, In k (g_keys (p_cfg p')) /\ k_id k = id /\
  forall src dst header body,
    compute_mac sha blake port src dst header body k = Some (rfc_mac sha blake ty v (signed_bytes src dst port header body)).
Proof.
  intros sha blake e ls ts p port Hd P T Nn F Bn. destruct (C76_file e ls ts p T Nn F Bn) as (p' & E & _ & _ & (_ & K & _) & _).
  exists p'. split; [exact E|]. intros id ty v L.
  assert (G : key_good ty v).
  { destruct L as (a & x & b & El & Dx & _). unfold defines in Dx. cbn [fst snd] in Dx. subst x. apply (file_keys_good e ls ts id ty v T). rewrite El. apply in_or_app. right. now left. }
  destruct (K id ty v L) as (k & Ik & Ek & Et & Ev). exists k. split; [exact Ik|]. split; [exact Ek|].
  intros. now apply (C78_mac sha blake port src dst header body k ty v).
Qed.
Print Assumptions C78_file.

(** Whatever lines and files were given, with whatever errors, and whatever interfaces came and
    went: every key of the table can sign, with 32 or 16 bytes. *)
Theorem C78_never_fails : forall sha blake e s port src dst header body k, digests sha blake -> 0 <= port < 65536 ->
  kreach e s -> In k (g_keys (p_cfg (ks_p s))) ->
  exists d, compute_mac sha blake port src dst header body k = Some d /\ (length d = 32 \/ length d = 16)%nat.
Proof.
  intros sha blake e s port src dst header body k Hd P R Ik. rewrite compute_is by assumption. destruct Hd as (Hs & Hb).
  pose proof (proj1 (Forall_forall _ _) (reach_fits e s R) k Ik) as G. unfold mac_of. destruct G as [(-> & L)|(-> & L)]; cbn [Z.eqb Pos.eqb].
  - rewrite L. eexists. split; [reflexivity|]. left. unfold rfc_mac, hmac. cbn [Z.eqb Pos.eqb]. apply Hs.
  - replace (1 <=? Z.of_nat (length (k_value k))) with true by lia. replace (Z.of_nat (length (k_value k)) <=? 32) with true by lia.
    eexists. split; [reflexivity|]. right. unfold rfc_mac. cbn [Z.eqb Pos.eqb]. apply Hb.
Qed.
Print Assumptions C78_never_fails.

(** This is the keyed hash of the theorems on authentication (C12, C13, C16), whose parameter
    is a function from key and bytes to the digest. *)
Theorem C78_same : forall sha blake port src dst header body k, digests sha blake -> 0 <= port < 65536 ->
  compute_hmac M_Config.key (mac_of sha blake) (port_bytes port) src dst header body k = compute_mac sha blake port src dst header body k.
Proof.
  intros sha blake port src dst header body k Hd P. rewrite compute_is by assumption. unfold compute_hmac, hmac_input, signed_bytes.
  now rewrite (port_same port P).
Qed.
Print Assumptions C78_same.

(** Two daemons whose files give a key the same type and secret, under whatever names: what one
    signs verifies at the other. *)
Theorem C78_interop : forall sha blake port k1 k2 ty v src lls dst buf size tl rest, digests sha blake -> 0 <= port < 65536 -> key_good ty v ->
  k_type k1 = ty -> k_value k1 = secret ty v -> k_type k2 = ty -> k_value k2 = secret ty v ->
  add_hmac M_Config.key (mac_of sha blake) (port_bytes port) (src :: lls) dst ([42; 2] ++ be16 (zlen buf)) buf size k1 = Some tl ->
  tl = (16 :: zlen (rfc_mac sha blake ty v (signed_bytes src dst port ([42; 2] ++ be16 (zlen buf)) buf)) ::
        rfc_mac sha blake ty v (signed_bytes src dst port ([42; 2] ++ be16 (zlen buf)) buf)) /\
  check_hmac M_Config.key (mac_of sha blake) (port_bytes port) src dst (([42; 2] ++ be16 (zlen buf)) ++ buf ++ tl ++ rest) (zlen buf) k2 = Ret 1.
Proof.
  intros sha blake port k1 k2 ty v src lls dst buf size tl rest Hd P G T1 V1 T2 V2 A.
  assert (A2 : add_hmac M_Config.key (mac_of sha blake) (port_bytes port) (src :: lls) dst ([42; 2] ++ be16 (zlen buf)) buf size k2 = Some tl).
  { rewrite <- A. unfold add_hmac, compute_hmac, mac_of. now rewrite T1, V1, T2, V2. }
  split.
  - unfold add_hmac in A. destruct (_ >? size); [discriminate A|].
    rewrite (C78_same sha blake port src dst ([42; 2] ++ be16 (zlen buf)) buf k1 Hd P) in A.
    rewrite (C78_mac sha blake port src dst ([42; 2] ++ be16 (zlen buf)) buf k1 ty v Hd P G T1 V1) in A. injection A as <-.
    unfold MESSAGE_MAC. f_equal. f_equal. set (d := rfc_mac _ _ _ _ _).
    assert (L : zlen d = 32 \/ zlen d = 16).
    { destruct Hd as (Hs & Hb). unfold d, rfc_mac, hmac, zlen. destruct (ty =? 1); [left; now rewrite Hs|right; now rewrite Hb]. }
    unfold u8. destruct L as [-> | ->]; reflexivity.
  - apply (C12_signed_verifies M_Config.key (mac_of sha blake) (port_bytes port) src lls dst buf size k2 tl rest); [|exact A2].
    now apply mac_short.
Qed.
Print Assumptions C78_interop.

(** And only a MAC with that secret verifies. *)
Theorem C78_only : forall sha blake port src dst pkt n k ty v, digests sha blake -> 0 <= port < 65536 -> key_good ty v ->
  k_type k = ty -> k_value k = secret ty v -> bytes_ok pkt -> 0 <= n ->
  check_hmac M_Config.key (mac_of sha blake) (port_bytes port) src dst pkt n k = Ret 1 ->
  exists a h b, pkt = a ++ (16 :: zlen h :: h) ++ b /\ 4 + n <= zlen a /\
    h = rfc_mac sha blake ty v (signed_bytes src dst port (firstn 4 pkt) (firstn (Z.to_nat n) (skipn 4 pkt))).
Proof.
  intros sha blake port src dst pkt n k ty v Hd P G T V B N C.
  destruct (C12_only_matching M_Config.key (mac_of sha blake) (port_bytes port) src dst pkt n k B N C) as (a & h & b & E & L & M).
  exists a, h, b. split; [exact E|]. split; [exact L|].
  pose proof (C78_same sha blake port src dst (firstn 4 pkt) (firstn (Z.to_nat n) (skipn 4 pkt)) k Hd P) as S1.
  unfold compute_hmac, hmac_input in S1. rewrite M in S1.
  rewrite (C78_mac sha blake port src dst _ _ k ty v Hd P G T V) in S1. now injection S1.
Qed.
Print Assumptions C78_only.

(** A key line without a value is accepted for HMAC-SHA256: the key is the empty secret, with
    which anybody can sign. *)
Theorem C78_no_value_refuted : ~ forall e l p k, g_keys (p_cfg p) = [] ->
  In k (g_keys (p_cfg (snd (from_string e l p)))) -> exists x, In x (k_value k) /\ x <> 0.
Proof.
  intros H. destruct (H r_env (str "key id k1 type hmac-sha256") r_p (mkKey (str "k1") 1 (repeat 0 64) 0) eq_refl) as (x & I & Nx).
  - vm_compute. now left.
  - apply repeat_spec in I. contradiction.
Qed.
Print Assumptions C78_no_value_refuted.

(** ** A case: two toy hashes, the key of the file of C76 *)
Definition toy (m : list Z) : list Z := map (fun i => (fold_left (fun a x => (a * 31 + x + Z.of_nat i) mod 65521) m 7) mod 256) (seq 0 32).
Definition toyb (k m : list Z) : list Z := firstn 16 (toy (k ++ m)).
Lemma toy_digests : digests toy toyb.
Proof.
  assert (L : forall m, length (toy m) = 32%nat) by (intro m; unfold toy; now rewrite map_length, seq_length).
  split; [exact L|]. intros k m. unfold toyb. rewrite firstn_length, L. reflexivity.
Qed.
Example C78_ex : digests toy toyb /\ last_of (defines (str "k1")) (keys f_lines) (1, [0; 255; 167]) /\ key_good 1 [0; 255; 167] /\
  let g := p_cfg (snd (from_file r_env (concat f_texts) r_p)) in
  map (compute_mac toy toyb 6696 x_src x_dst [42; 2; 0; 4] [4; 2; 1; 2]) (g_keys g) =
  [Some (hmac toy [0; 255; 167] (x_src ++ [26; 40] ++ x_dst ++ [26; 40] ++ [42; 2; 0; 4; 4; 2; 1; 2]))] /\
  match g_keys g with
  | [k] =>
      match add_hmac M_Config.key (mac_of toy toyb) (port_bytes 6696) [x_src] x_dst ([42; 2] ++ be16 4) [4; 2; 1; 2] 1000 k with
      | Some tl => check_hmac M_Config.key (mac_of toy toyb) (port_bytes 6696) x_src x_dst ([42; 2; 0; 4; 4; 2; 1; 2] ++ tl) 4 k = Ret 1
      | None => False
      end
  | _ => False
  end.
Proof.
  split; [exact toy_digests|]. split; [exists [], (str "k1", 1, [0; 255; 167]), []; repeat split; intros ? ? []|].
  split; [split; [discriminate|left; cbn; split; lia]|]. cbv zeta. split; [vm_compute; reflexivity|].
  vm_compute. reflexivity.
Qed.
Example C78_reach_ex : exists e s k, kreach e s /\ In k (g_keys (p_cfg (ks_p s))) /\ k_type k = 2.
Proof.
  exists r_env, (kstep r_env (KLine (str "key id b type blake2s128 value 0102")) (mkKs r_p [])), (mkKey (str "b") 2 [1; 2] 0).
  split; [apply kr_step; [now apply kr_boot|exact Logic.I]|]. split; [vm_compute; now left|reflexivity].
Qed.
