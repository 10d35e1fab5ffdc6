(** System information, /repo/src/sysinfo.c (Linux build with sysfs and
    /proc/sys/net). *)
From Verif Require Import Base Types Tlv.

(** struct utsname, uname(2). *)
Record uts := mkUts { ut_sysname : list Z; ut_nodename : list Z; ut_release : list Z;
                      ut_version : list Z; ut_machine : list Z }.
(** The operating system as seen by sysinfo_fetch: the output of "lsb_release -s
    -d" and whether it exited with status 0 (sysinfo.c 99-125), uname(2) (129),
    the h_name found by gethostbyname(3) (172), and the content of files
    (read_line).  Failing pipe, fork, fdopen and uname end the process and are not
    modelled. *)
Record sios := mkSios { so_lsb : list Z; so_lsb_ok : bool; so_uts : uts;
                        so_host : option (list Z); so_file : list Z -> option (list Z) }.

(** fgets(3) with a buffer of [n + 1] bytes: what is stored, without the NUL. *)
Fixpoint fgets (n : nat) (l : list Z) : list Z :=
  match n, l with
  | S n', b :: l' => b :: (if b =? 10 then [] else fgets n' l')
  | _, _ => []
  end.
(** buf[strcspn(buf, "\n")] = '\0', sysinfo.c 106, /repo/src/util.c 237. *)
Fixpoint upto_nl (l : list Z) : list Z :=
  match l with
  | [] => []
  | b :: l' => if b =? 10 then [] else b :: upto_nl l'
  end.
(** read_line, /repo/src/util.c 229-243, into a buffer of [n + 1] bytes: the
    string stored ([None]: the buffer is left alone). *)
Definition read_line (os : sios) (path : list Z) (n : nat) : option (list Z) :=
  match so_file os path with
  | None | Some [] => None
  | Some c => Some (upto_nl (cstr (fgets n c)))
  end.

(** The distribution, sysinfo.c 99-125: the first line without quotes and with a
    blank behind it. *)
Definition lsb_descr (os : sios) : option (list Z) :=
  match so_lsb os with
  | [] => None
  | out =>
      let buf := upto_nl (cstr (fgets 511 out)) in
      let text := if (hd 0 buf =? 34) && (last buf 0 =? 34) then tl (removelast buf) else buf in
      if so_lsb_ok os then Some (text ++ [32]) else None
  end.
(** snprintf(3) into an array of 256 bytes, sysinfo.c 133-136, 145-153. *)
Definition snprintf256 (s : list Z) : list Z := firstn 255 s.

(** isspace(3) and isdigit(3) in the C locale. *)
Definition isspace (c : Z) : bool := (c =? 32) || ((9 <=? c) && (c <=? 13)).
(** isdigit(3), as inside strtol(3), sysinfo.c 161. *)
Definition isdigit (c : Z) : bool := (48 <=? c) && (c <=? 57).
(** strtol(3), libc.  The digits at the start of a string: value so far, number of
    digits. *)
Fixpoint scan_digits (l : list Z) (v : Z) (k : nat) : Z * nat :=
  match l with
  | c :: l' => if isdigit c then scan_digits l' (v * 10 + (c - 48)) (S k) else (v, k)
  | [] => (v, k)
  end.
(** The blanks strtol(3) skips. Helper without a counterpart in the C code. *)
Fixpoint skip_space (l : list Z) (k : nat) : list Z * nat :=
  match l with
  | c :: l' => if isspace c then skip_space l' (S k) else (l, k)
  | [] => ([], k)
  end.
(** strtol(3) with base 10: the value (a saturated long) and the number of
    characters up to endptr. *)
Definition strtol (l : list Z) : Z * nat :=
  let '(l1, k1) := skip_space l 0 in
  let '(neg, l2, k2) := match l1 with
                        | c :: l' => if c =? 45 then (true, l', S k1)
                                     else if c =? 43 then (false, l', S k1) else (false, l1, k1)
                        | [] => (false, [], k1)
                        end in
  let '(v, k) := scan_digits l2 0 0 in
  match k with
  | O => (0, O)
  | _ => let v := if neg then Z.max (-9223372036854775808) (- v) else Z.min 9223372036854775807 v in
         (v, (k2 + k)%nat)
  end.
(** atoi(3). *)
Definition atoi (l : list Z) : Z := (fst (strtol l) + 2147483648) mod 4294967296 - 2147483648.

(** The loop over the release string, sysinfo.c 158-170, collecting what is stored
    into uts_rel[0..2]; each pass moves on by a character at least.  A pass that
    finds no number stores a zero, which is what was there. *)
Fixpoint rel_loop (fuel : nat) (release : list Z) (i : nat) : list Z :=
  match fuel with
  | O => []
  | S fuel' =>
      match release, i with
      | [], _ | _, O => []
      | _, S i' =>
          let '(v, k) := strtol release in
          let next := skipn (S k) release in
          match k with
          | O => rel_loop fuel' next i
          | _ => v mod 256 :: rel_loop fuel' next i'
          end
      end
  end.
(** The three numbers left in uts_rel. *)
Definition uts_rel (release : list Z) : list Z :=
  firstn 3 (rel_loop (S (length release)) release 3 ++ [0; 0; 0]).

(** SYSFS_* and PROCFS_* paths, sysinfo.c 33-44. *)
Definition SYSFS_HW_REVISION := bs "/sys/class/dmi/id/product_version".
Definition SYSFS_FW_REVISION := bs "/sys/class/dmi/id/bios_version". (* sysinfo.c 35 *)
Definition SYSFS_SERIAL_NO := bs "/sys/class/dmi/id/product_serial". (* sysinfo.c 36 *)
Definition SYSFS_MANUFACTURER := bs "/sys/class/dmi/id/sys_vendor". (* sysinfo.c 37 *)
Definition SYSFS_MODEL_NAME := bs "/sys/class/dmi/id/product_name". (* sysinfo.c 38 *)
Definition PROCFS_FORWARD_IPV4 := bs "/proc/sys/net/ipv4/conf/all/forwarding". (* sysinfo.c 42 *)
Definition PROCFS_FORWARD_IPV6 := bs "/proc/sys/net/ipv6/conf/all/forwarding". (* sysinfo.c 43 *)

(** sysinfo_forwarding, sysinfo.c 246-279: cap and cap_active. *)
Definition sysinfo_forwarding (os : sios) (cap act : Z) : Z * Z :=
  let one path cap act :=
    match read_line os path 255 with
    | Some line =>
        if zlen line =? 0 then (cap, act, false)
        else if atoi line =? 1 then (Z.lor cap CAP_ROUTER, Z.lor act CAP_ROUTER, true)
        else (Z.lor cap CAP_ROUTER, act, false)
    | None => (cap, act, false)
    end in
  let '(cap1, act1, done) := one PROCFS_FORWARD_IPV4 cap act in
  if done then (cap1, act1)
  else let '(cap2, act2, _) := one PROCFS_FORWARD_IPV6 cap1 act1 in (cap2, act2).

(** sysinfo_fetch, sysinfo.c 48-242, on the structure set up by main.c 64-65 and
    the options -c and -l (country, location); lldpmed_devtype is -1 before.  The
    comparison with an empty struct hinv (237) is taken on the strings. *)
Definition sysinfo_fetch (os : sios) (country location : list Z) : sysinfo :=
  let u := so_uts os in
  let descr := lsb_descr os in
  let uts_str := snprintf256 ((match descr with Some d => d | None => [] end)
                    ++ ut_sysname u ++ [32] ++ ut_release u ++ [32] ++ ut_version u ++ [32] ++ ut_machine u) in
  let platform := snprintf256 (match descr with
                    | Some d => d ++ ut_sysname u ++ [32] ++ ut_machine u
                    | None => ut_sysname u ++ [32] ++ ut_release u ++ [32] ++ ut_machine u
                    end) in
  let hostname := firstn 255 (match so_host os with
                    | Some h => if beq h (bs "localhost") then ut_nodename u else h
                    | None => ut_nodename u
                    end) in
  let file path := match read_line os path 32 with Some s => s | None => [] end in
  let inv := mkHinv (file SYSFS_HW_REVISION) (file SYSFS_FW_REVISION) (firstn 32 (ut_release u))
               (file SYSFS_SERIAL_NO) (file SYSFS_MANUFACTURER) (file SYSFS_MODEL_NAME) [] in
  let filled := existsb (fun s => 0 <? zlen s)
                  [hi_hw inv; hi_fw inv; hi_sw inv; hi_serial inv; hi_manuf inv; hi_model inv] in
  let med := Z.lor (Z.lor 1 (if (0 <? zlen country) && (0 <? zlen location) then 4 else 0))
               (if filled then 32 else 0) in
  let '(cap, act) := sysinfo_forwarding os CAP_HOST CAP_HOST in
  mkSysinfo uts_str (uts_rel (ut_release u)) platform hostname country location cap act med
    1 (repeat 0 6) 0 None inv.
