(** S_Sysctl.v: which settings of the kernel a router needs, and what is left of them. *)
From Coq Require Import String.
From Verif Require Import Base M_Config M_Sysctl.
Close Scope string_scope.
Open Scope Z_scope.

(** Forwarding on; redirects and the reverse path filter off *)
Definition needed : list (list Z * Z) :=
  [(str "/proc/sys/net/ipv6/conf/all/forwarding", 1); (str "/proc/sys/net/ipv4/conf/all/forwarding", 1);
   (str "/proc/sys/net/ipv6/conf/all/accept_redirects", 0); (str "/proc/sys/net/ipv4/conf/all/rp_filter", 0)].
Definition rp_path (n : list Z) : list Z := str "/proc/sys/net/ipv4/conf/" ++ n ++ str "/rp_filter".
(** The files if babeld had never run: what the other programs did *)
Definition without (f : fs) (evs : list sev) : fs :=
  fold_left (fun f ev => match ev with VFile p o => fun q => if beq q p then o else f q | _ => f end) evs f.
(** The files that babeld holds: while it runs the four, and that of every interface up *)
Definition held (s : sst) (p : list Z) : Prop :=
  s_run s = true /\ (In p (map fst needed) \/ exists x, In x (s_ifs s) /\ i_up x = true /\ p = rp_path (i_name x)).
(** The interfaces that babeld was told to use *)
Definition added (evs : list sev) (n : list Z) : Prop := In (VAdd n) evs.
(** A sane file: documented values, and what may be written may be read *)
Definition sane (o : option file) : Prop :=
  forall x, o = Some x -> 0 <= f_val x < 2147483648 /\ (f_w x = true -> f_r x = true).
(** At the start every setting is as needed or can be changed. *)
Definition ready (f : fs) : Prop :=
  forall p v, In (p, v) needed -> exists x, f p = Some x /\ f_r x = true /\ (f_val x = v \/ f_w x = true).
(** Other programs leave alone what is held, except that an interface may disappear. *)
Definition fair (skip : bool) (s : sst) (ev : sev) : Prop :=
  match ev with
  | VFile p o => sane o /\ (~ held s p \/ (o = None /\ ~ In p (map fst needed)))
  | VStart _ _ => skip = true \/ ready (s_fs s)
  | VAdd n => n <> str "all" /\ Z.of_nat (length (s_ifs s)) < 1024
  | _ => True
  end.
Definition fair_run (skip : bool) (f : fs) (evs : list sev) : Prop :=
  forall a ev b, evs = a ++ ev :: b -> fair skip (srun skip f a) ev.
