(** S_Auth.v: what is expected of challenges and packet counters, in terms of the
    sequence of what happened (newest first). *)
From Verif Require Import Base M_Util S_Util M_Auth.

Definition is_request (n : note) : bool := match n with NRequest _ _ => true | _ => false end.
Definition is_honoured (n : note) : bool := match n with NHonoured _ _ => true | _ => false end.

(** A reply which was honoured answers the last request sent before it, which no
    other reply has answered, and which is at most 30 s old. *)
Definition challenges_ok (log : list note) : Prop :=
  forall newer n t older, log = newer ++ NHonoured n t :: older ->
  exists mid t0 older', older = mid ++ NRequest n t0 :: older' /\
    Forall (fun x => is_request x = false /\ is_honoured x = false) mid /\
    us t <= us t0 + 30000000.

(** Requests are at least 300 ms apart. *)
Definition spaced (log : list note) : Prop :=
  forall newer n t mid n' t' older, log = newer ++ NRequest n t :: mid ++ NRequest n' t' :: older ->
  us t' + 300000 < us t.

(** Of two packets of the same class accepted one after the other, the second has the
    same index and a larger counter, unless a challenge was completed after the first
    was accepted. *)
Definition counters_ok (log : list note) : Prop :=
  forall newer m i p mid i' p' older,
  log = newer ++ NAccept m i p :: mid ++ NAccept m i' p' :: older ->
  (i = i' /\ p' < p) \/ exists n t, In (NHonoured n t) mid.
