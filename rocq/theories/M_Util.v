(** M_Util.v: model of util.h and util.c. *)
From Verif Require Import Base.

(** ** Sequence numbers *)

(** util.h:40-47 seqno_compare. Arguments are unsigned short; the subtraction is
    done in int and masked with 0x8000. *)
Definition seqno_compare (s1 s2 : Z) : Z :=
  if s1 =? s2 then 0
  else if negb (Z.land (s2 - s1) 32768 =? 0) then 1 else -1.

(** util.h:49-53 seqno_minus *)
Definition seqno_minus (s1 s2 : Z) : Z := s16 (Z.land (s1 - s2) 65535).

(** util.h:55-59 seqno_plus *)
Definition seqno_plus (s plus : Z) : Z := Z.land (s + plus) 65535.

(** ** Time *)

Record timeval := mkTv { tv_sec : Z; tv_usec : Z }.

(** util.h:63-67 time_us *)
Definition time_us (t : timeval) : Z := u32 (tv_sec t * 1000000 + tv_usec t).

(** util.c:41-50 roughly. [r] is the value returned by random(), 0 <= r < 2^31.
    The C code multiplies in int: [roughly_safe] says that no overflow happens. *)
Definition roughly_pos (v r : Z) : Z :=
  if v <=? 1 then v else v * 3 / 4 + r mod (v / 2).
Definition roughly (v r : Z) : Z :=
  if v <? 0 then - roughly_pos (- v) r else roughly_pos v r.
Definition roughly_safe (v : Z) : bool := int_ok (- v) && int_ok (Z.abs v * 3).

(** util.c:52-63 timeval_minus *)
Definition timeval_minus (s1 s2 : timeval) : timeval :=
  if tv_usec s1 >=? tv_usec s2 then
    mkTv (tv_sec s1 - tv_sec s2) (tv_usec s1 - tv_usec s2)
  else
    mkTv (tv_sec s1 - tv_sec s2 - 1) (tv_usec s1 + 1000000 - tv_usec s2).

(** util.c:65-84 timeval_minus_msec. C division truncates: Z.quot. *)
Definition timeval_minus_msec (s1 s2 : timeval) : Z :=
  if tv_sec s1 <? tv_sec s2 then 0
  else if tv_sec s1 - tv_sec s2 >? 2000000 then 2000000000
  else if tv_sec s1 >? tv_sec s2 then
    u32 (u32 ((tv_sec s1 - tv_sec s2) * 1000) + Z.quot (tv_usec s1 - tv_usec s2) 1000)
  else if tv_usec s1 <=? tv_usec s2 then 0
  else (tv_usec s1 - tv_usec s2) / 1000.

(** util.c:86-98 timeval_add_msec. C's / and % truncate. *)
Definition timeval_add_msec (s : timeval) (msecs : Z) : timeval :=
  let usecs := tv_usec s + (Z.rem msecs 1000) * 1000 in
  if usecs <? 1000000 then mkTv (tv_sec s + Z.quot msecs 1000) usecs
  else mkTv (tv_sec s + Z.quot msecs 1000 + 1) (usecs - 1000000).

(** util.c:100-113 timeval_compare *)
Definition timeval_compare (s1 s2 : timeval) : Z :=
  if tv_sec s1 <? tv_sec s2 then -1
  else if tv_sec s1 >? tv_sec s2 then 1
  else if tv_usec s1 <? tv_usec s2 then -1
  else if tv_usec s1 >? tv_usec s2 then 1
  else 0.

(** util.c:115-125 timeval_min; returns the new value of *d *)
Definition timeval_min (d s : timeval) : timeval :=
  if tv_sec s =? 0 then d
  else if (tv_sec d =? 0) || (timeval_compare d s >? 0) then s else d.

(** util.c:127-134 timeval_min_sec; [r] is random() *)
Definition timeval_min_sec (d : timeval) (secs r : Z) : timeval :=
  if (tv_sec d =? 0) || (tv_sec d >? secs) then mkTv secs (r mod 1000000) else d.

(** ** Strings: lists of character codes, the terminating NUL being the end of
    the list. *)

Definition isblank_ (c : Z) : bool := (c =? 32) || (c =? 9).
Definition isdigit_ (c : Z) : bool := (48 <=? c) && (c <=? 57).

Fixpoint skip_blanks (s : list Z) : list Z :=
  match s with
  | c :: t => if isblank_ c then skip_blanks t else s
  | [] => []
  end.

(** The digit loops of util.c:168-171 and 175-179: accumulate in an unsigned int
    (modulo 2^32), counting the digits. *)
Fixpoint digits_u32 (s : list Z) (acc : Z) (n : nat) : Z * nat * list Z :=
  match s with
  | c :: t => if isdigit_ c then digits_u32 t (u32 (acc * 10 + c - 48)) (S n) else (acc, n, s)
  | [] => (acc, n, [])
  end.

Fixpoint div10 (fl : Z) (n : nat) : Z :=
  match n with O => fl | S m => div10 (fl / 10) m end.
Fixpoint mul10 (fl : Z) (n : nat) : Z :=
  match n with O => fl | S m => mul10 (u32 (fl * 10)) m end.

(** util.c:158-198 parse_thousands *)
Definition parse_thousands (s : list Z) : Z :=
  let '(in_, _, s1) := digits_u32 (skip_blanks s) 0 0 in
  let '(fl, s2) :=
    match s1 with
    | 46 :: s1' =>
        let '(fl0, j, s1'') := digits_u32 s1' 0 0 in
        let fl1 := if (3 <? j)%nat then div10 fl0 (j - 3) else fl0 in
        ((if (j <? 3)%nat then mul10 fl1 (3 - j) else fl1), s1'')
    | _ => (0, s1)
    end in
  match skip_blanks s2 with
  | [] => s32 (u32 (in_ * 1000) + fl)
  | _ => -1
  end.

(** util.c:200-211 h2i *)
Definition h2i (c : Z) : Z :=
  if (48 <=? c) && (c <=? 57) then c - 48
  else if (97 <=? c) && (c <=? 102) then c - 97 + 10
  else if (65 <=? c) && (c <=? 70) then c - 65 + 10
  else -1.

(** util.c:213-230 fromhex: None is -1, Some l is the decoded bytes *)
Fixpoint fromhex (s : list Z) : option (list Z) :=
  match s with
  | [] => Some []
  | [_] => None
  | a :: b :: t =>
      if h2i a <? 0 then None
      else if h2i b <? 0 then None
      else match fromhex t with
           | None => None
           | Some l => Some ((h2i a * 16 + h2i b) :: l)
           end
  end.

(** printf "%x" of one hexadecimal digit *)
Definition hexdigit (d : Z) : Z := if d <? 10 then 48 + d else 87 + d.
Definition hex2 (b : Z) : list Z := [hexdigit (b / 16); hexdigit (b mod 16)].

(** util.c:319-329 format_eui64: "%02x:...:%02x" *)
Fixpoint format_eui64 (e : list Z) : list Z :=
  match e with
  | [] => []
  | [b] => hex2 b
  | b :: t => hex2 b ++ 58 :: format_eui64 t
  end.

(** printf "%u" and "%.3u" *)
Fixpoint dec_fuel (fuel : nat) (v : Z) (acc : list Z) : list Z :=
  match fuel with
  | O => acc
  | S f => let acc' := (48 + v mod 10) :: acc in
           if v / 10 =? 0 then acc' else dec_fuel f (v / 10) acc'
  end.
Definition dec (v : Z) : list Z := dec_fuel 10 v [].
Definition dec3 (v : Z) : list Z := [48 + v / 100; 48 + v / 10 mod 10; 48 + v mod 10].

(** util.c:331-339 format_thousands; value is an unsigned int, hence at most 10
    digits *)
Definition format_thousands (v : Z) : list Z := dec (v / 1000) ++ 46 :: dec3 (v mod 1000).

(** One "%02hhx" conversion of sscanf: skip white space, at most two characters
    made of an optional sign and hexadecimal digits (at least one).
    Simplification: glibc's acceptance of a "0x" prefix inside the two
    characters is not modelled. *)
Definition isspace_ (c : Z) : bool := (c =? 32) || ((9 <=? c) && (c <=? 13)).
Fixpoint skip_spaces (s : list Z) : list Z :=
  match s with
  | c :: t => if isspace_ c then skip_spaces t else s
  | [] => []
  end.
Definition scan_hhx (s : list Z) : option (Z * list Z) :=
  match skip_spaces s with
  | [] => None
  | c :: t =>
      if (c =? 43) || (c =? 45) then
        match t with
        | d :: t' => if h2i d <? 0 then None
                     else Some (u8 (if c =? 45 then - h2i d else h2i d), t')
        | [] => None
        end
      else if h2i c <? 0 then None
      else match t with
           | d :: t' => if h2i d <? 0 then Some (h2i c, t) else Some (h2i c * 16 + h2i d, t')
           | [] => Some (h2i c, t)
           end
  end.

(** sscanf of n conversions separated by [sep]: the list of values converted
    before the first failure (its length is sscanf's return value, except that
    sscanf gives EOF instead of 0 on empty input, which parse_eui64 treats alike). *)
Fixpoint scan_list (sep : Z) (n : nat) (s : list Z) : list Z :=
  match n with
  | O => []
  | S m =>
      match scan_hhx s with
      | None => []
      | Some (v, s') =>
          v :: match m, s' with
               | O, _ => []
               | _, c :: s'' => if c =? sep then scan_list sep m s'' else []
               | _, [] => []
               end
      end
  end.

(** util.c:424-449 parse_eui64 *)
Definition parse_eui64 (s : list Z) : option (list Z) :=
  let a := scan_list 58 8 s in
  if (length a =? 8)%nat then Some a
  else let b := scan_list 45 8 s in
  if (length b =? 8)%nat then Some b
  else let c := scan_list 58 6 s in
  if (length c =? 6)%nat then Some (firstn 3 c ++ [255; 254] ++ skipn 3 c)
  else None.

(** ** Prefixes *)

(** util.c:281-282 v4prefix; util.c:284-285 llprefix *)
Definition v4prefix : list Z := [0;0;0;0;0;0;0;0;0;0;255;255;0;0;0;0].
Definition llprefix : list Z := [254;128;0;0;0;0;0;0;0;0;0;0;0;0;0;0].

(** util.c:244-262 in_prefix; plen is an unsigned char *)
Definition in_prefix (address prefix : list Z) (plen0 : Z) : bool :=
  let plen := if plen0 >? 128 then 128 else plen0 in
  let n := Z.to_nat (plen / 8) in
  if negb (memcmp_n n address prefix =? 0) then false
  else if plen mod 8 =? 0 then true
  else
    let m := u8 (Z.shiftl 255 (8 - plen mod 8)) in
    Z.land (at_ address n) m =? Z.land (at_ prefix n) m.

(** util.c:264-279 normalize_prefix *)
Definition normalize_prefix (prefix : list Z) (plen : Z) : list Z :=
  if plen >=? 128 then firstn 16 prefix
  else
    let n := Z.to_nat (plen / 8) in
    let base := firstn n prefix ++ zeroes (16 - n) in
    if negb (plen mod 8 =? 0) then
      upd n (Z.land (at_ prefix n) (Z.land (Z.shiftl 255 (8 - plen mod 8)) 255)) base
    else base.

(** util.c:492-496 v4mapped *)
Definition v4mapped (a : list Z) : bool := memcmp_n 12 a v4prefix =? 0.

(** util.c:486-490 linklocal *)
Definition linklocal (a : list Z) : bool := memcmp_n 8 a llprefix =? 0.

(** util.c:498-503 v4tov6 *)
Definition v4tov6 (src : list Z) : list Z := firstn 12 v4prefix ++ firstn 4 src.

(** util.c:505-509 ae_is_v4 *)
Definition ae_is_v4 (ae : Z) : bool := (ae =? 1) || (ae =? 4).

(** util.h:111-115 is_default *)
Definition is_default (prefix : list Z) (plen : Z) : bool :=
  (plen =? 0) || ((plen =? 96) && v4mapped prefix).

(** util.c:471-484 martian_prefix *)
Definition martian_prefix (prefix : list Z) (plen : Z) : bool :=
  ((plen >=? 8) && (at_ prefix 0 =? 255)) ||
  ((plen >=? 10) && (at_ prefix 0 =? 254) && (Z.land (at_ prefix 1) 192 =? 128)) ||
  ((plen >=? 128) && (memcmp_n 15 prefix (zeroes 16) =? 0) &&
   ((at_ prefix 15 =? 0) || (at_ prefix 15 =? 1))) ||
  ((plen >=? 96) && v4mapped prefix &&
   (((plen >=? 104) && ((at_ prefix 12 =? 127) || (at_ prefix 12 =? 0))) ||
    ((plen >=? 100) && (Z.land (at_ prefix 12) 240 =? 224)) ||
    ((plen >=? 128) && (memcmp (firstn 4 (skipn 12 prefix)) [255;255;255;255] =? 0)))).
