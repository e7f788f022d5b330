(** S_Ifup.v: vocabulary for the properties of interfaces that come up. *)
From Verif Require Import Base M_Types M_Neigh M_Table M_Config M_Ifup.

(** The largest values of the parameters of an interface, in the order of the table of
    M_Config.v; 0 means that nothing is configured: hello-interval, update-interval (ms),
    rxcost, type, split-horizon, link-quality, faraway, unicast, accept-bad-signatures,
    enable-timestamps, rfc6126-compatible, rtt-decay, rtt-min, rtt-max (us),
    max-rtt-penalty, v4-via-v6, probe-mtu. *)
Definition val_bounds : list Z :=
  [655350; 655350; 65535; 3; 2; 2; 2; 2; 2; 2; 2; 256; 2147483647; 2147483647; 65535; 2; 2].
Definition vals_ok (l : list Z) : Prop := Forall2 (fun v b => 0 <= v <= b) l val_bounds.
(** A configuration whose interfaces have such values. *)
Definition ifs_valid (g : cfg) : Prop :=
  Forall (fun ic => vals_ok (ic_vals ic)) (g_ifs g) /\
  match g_default g with Some ic => vals_ok (ic_vals ic) | None => True end.
Definition conf_valid (o : option ifconf) : Prop := match o with Some ic => vals_ok (ic_vals ic) | None => True end.
(** The options -h and -H: not given, or at most 655.35 s (babeld.c:174-185). *)
Definition opts_ok (df : ifdefs) : Prop := df_wireless df <= 655350 /\ df_wired df <= 655350.

(** A value of the table: [given ic n v] if the line for the interface (or "default") has
    it. *)
Definition given (ic : option ifconf) (n : nat) (v : Z) : Prop :=
  exists c, ic = Some c /\ nth n (ic_vals c) 0 = v /\ v <> 0.
Definition open (ic : option ifconf) (n : nat) : Prop :=
  match ic with Some c => nth n (ic_vals c) 0 = 0 | None => True end.
(** [v] is the value of parameter [n] if there is one, [d] otherwise. *)
Definition value (ic : option ifconf) (n : nat) (d v : Z) : Prop := given ic n v \/ (open ic n /\ v = d).
(** A switch: yes (2), no (1), or the default. *)
Definition switch (ic : option ifconf) (n : nat) (d b : bool) : Prop :=
  (given ic n 2 /\ b = true) \/ (given ic n 1 /\ b = false) \/ (open ic n /\ b = d).

(** babeld.man: the type of an interface: as configured, else wireless with -w or if the
    kernel says so, else unknown *)
Inductive kind (ic : option ifconf) (df : ifdefs) (ka : kans) : Z -> Prop :=
| kind_given : forall t, given ic 3 t -> kind ic df ka t
| kind_w : open ic 3 -> df_all_wireless df = true -> kind ic df ka 2
| kind_kernel : open ic 3 -> df_all_wireless df = false -> 0 < ka_wireless ka -> kind ic df ka 2
| kind_other : open ic 3 -> df_all_wireless df = false -> ka_wireless ka <= 0 -> kind ic df ka 0.

(** The parameters that an interface gets when it comes up (babeld.man, "interface").
    [i] is the interface before: three switches stay on. *)
Record started (ic : option ifconf) (df : ifdefs) (ka : kans) (i i' : iface) : Prop := mkStarted {
  st_type : exists t, kind ic df ka t /\
    value ic 2 (if t =? 2 then 256 else 96) (if_cost i') /\
    value ic 0 (hello_default (if t =? 2 then df_wireless df else df_wired df)) (if_hello_interval i') /\
    value ic 14 (if t =? 3 then 96 else 0) (if_max_rtt_penalty i') /\
    flag i' IF_WIRELESS = (t =? 2) /\
    switch ic 4 (t =? 1) (flag i' IF_SPLIT_HORIZON) /\
    switch ic 5 (t =? 2) (flag i' IF_LQ) /\
    switch ic 9 (t =? 3) (flag i' IF_TIMESTAMPS);
  st_update : value ic 1 (4 * if_hello_interval i') (if_update_interval i');
  st_decay : value ic 11 42 (if_rtt_decay i');
  st_rttmin : value ic 12 10000 (if_rtt_min i');
  st_rttmax : exists m, value ic 13 120000 m /\ if_rtt_max i' = (if m <=? if_rtt_min i' then if_rtt_min i' + 10000 else m);
  st_sig : switch ic 8 false (flag i' IF_ACCEPT_BAD_SIGNATURES);
  st_6126 : switch ic 10 false (flag i' IF_RFC6126);
  st_v4v6 : switch ic 15 (ka_safe ka) (flag i' IF_V4VIAV6);
  st_sticky : flag i' IF_FARAWAY = flag i IF_FARAWAY || (cv ic 6 =? 2);
  st_unicast : flag i' IF_UNICAST = flag i IF_UNICAST || (cv ic 7 =? 2);
  st_probe : flag i' IF_PROBE_MTU = flag i IF_PROBE_MTU || (cv ic 16 =? 2);
  st_cap : if_cap i' = Z.max (if ka_mtu ka <? 0 then 1280 else ka_mtu ka) 512 - 52 }.
(** ... and those that stay. *)
Definition same_params (i i' : iface) : Prop :=
  if_flags i' = if_flags i /\ if_cost i' = if_cost i /\ if_hello_interval i' = if_hello_interval i /\
  if_update_interval i' = if_update_interval i /\ if_rtt_decay i' = if_rtt_decay i /\ if_rtt_min i' = if_rtt_min i /\
  if_rtt_max i' = if_rtt_max i /\ if_max_rtt_penalty i' = if_max_rtt_penalty i /\ if_cap i' = if_cap i.

(** What check_interfaces makes of an interface. *)
Definition can_start (ka : kans) : Prop :=
  0 <= ka_setup ka /\ 0 <= ka_join ka /\ exists a l, ka_ll ka = Some (a :: l).
Definition stays (ka : kans) (i : iface) : Prop := if_up i = true /\ if_ifindex i = ka_index ka.
Record checked (ic : option ifconf) (df : ifdefs) (ka : kans) (i i' : iface) : Prop := mkChecked {
  ck_id : if_id i' = if_id i;
  ck_index : if_ifindex i' = ka_index ka;
  ck_up : if_up i' = true <-> 0 < ka_index ka /\ 0 < ka_oper ka /\ (stays ka i \/ can_start ka);
  ck_same : if_up i' = true -> stays ka i -> same_params i i';
  ck_start : if_up i' = true -> ~ stays ka i -> started ic df ka i i';
  ck_ll : if_up i' = true -> if_ll i' = match ka_ll2 ka with Some l => firstn 32 l | None => [] end;
  ck_ipv4 : if_up i' = true -> if_ipv4 i' = ka_ipv42 ka;
  ck_down : if_up i = true -> if_up i' = false -> if_cap i' = 0 /\ if_ll i' = [] }.

(** When the routes through an interface go away: it goes down, is another one, or has
    another IPv4 address. *)
Definition lost (ka : kans) (i i' : iface) : Prop :=
  if_up i = true /\ (if_up i' = false \/ ~ stays ka i \/ if_ipv4 i <> ka_ipv42 ka).
