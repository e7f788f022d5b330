(** P_Link.v: C58, what is sent on a link fits in its MTU and is received whole. *)
From Verif Require Import Base M_Util M_Types M_Wire M_Buf S_Buf L_Buf P_Buf M_Main S_Main L_Main P_Main.

(** Every MTU gives a buffer for which the theorems about sending hold. *)
Theorem C58_send_buffer : forall m, m < 65536 -> 460 <= send_bufsize m < 65536.
Proof. intros m H. unfold send_bufsize, used_mtu. destruct (m <? 0) eqn:A; destruct (_ <? 512) eqn:B; lia. Qed.
Print Assumptions C58_send_buffer.

(** On an interface whose MTU is that of the link (at least 512), every datagram ever sent
    fits in the MTU with its 40 bytes of IPv6 and 8 bytes of UDP header, and is received whole
    by a router on which an interface with the same MTU has come up. *)
Theorem C58_sent_fits : forall key mac v s l m, 512 <= m < 65536 ->
  (v_key v <> None -> forall k x, exists d, mac k x = Some d /\ zlen d <= 32 /\ bytes_ok d) -> v_size v = send_bufsize m ->
  start_ok key v s -> Forall (op_ok (has_key v)) l ->
  Forall (fun pkt => zlen pkt + 40 + 8 <= m /\
    forall ifs cur, In (m, true) ifs -> received (up_all ifs cur) (zlen pkt) = zlen pkt) (e_sent (bsteps key mac v s l)).
Proof.
  intros key mac v s l m M K V St O.
  assert (E : env_ok key mac v). { split; [rewrite V; apply C58_send_buffer; lia|exact K]. }
  destruct (C11_bounds key mac v s l E St O) as (_ & _ & F). eapply Forall_impl; [|exact F].
  intros pkt L. cbv beta in L. rewrite V in L. unfold send_bufsize, used_mtu in L. replace (m <? 0) with false in L by lia. replace (m <? 512) with false in L by lia.
  assert (N : 0 <= zlen pkt) by (unfold zlen; lia). split; [lia|]. intros ifs cur I. apply (C58_not_truncated ifs cur m); [exact I|lia].
Qed.
Print Assumptions C58_sent_fits.
Example C58_sent_ex : v_size (x_v (Some tt)) = send_bufsize 512 /\
  map zlen (e_sent (bsteps unit x_mac (x_v (Some tt)) x_s (x_ops ++ [BFlush]))) = [464; 464] /\ 464 + 40 + 8 = 512.
Proof. split; [reflexivity|]. split; [vm_compute; reflexivity|reflexivity]. Qed.
