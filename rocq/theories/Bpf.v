(** The classic BPF virtual machine (restricted to the instructions used) and
    the two socket filters of /repo/src/filter.h. *)
From Verif Require Import Base Types Checks.

(** struct bpf_insn, the instruction kinds that occur in filter.h 23-114:
    BPF_LD+BPF_H+BPF_ABS, BPF_LD+BPF_W+BPF_ABS, BPF_LD+BPF_H+BPF_IND,
    BPF_LD+BPF_W+BPF_IND, BPF_LDX+BPF_W+BPF_IMM, BPF_JMP+BPF_JEQ+BPF_K and
    BPF_RET+BPF_K.  Jump offsets are relative to the next instruction. *)
Inductive bpf_insn :=
| LdH_abs (k : Z)
| LdW_abs (k : Z)
| LdH_ind (k : Z)
| LdW_ind (k : Z)
| LdX_imm (k : Z)
| Jeq (k : Z) (jt jf : nat)
| Ret (k : Z).

(** Loads of 2 and 4 packet bytes in network order; [None] outside the packet.
    External code (kernel, bpf_filter(9)), modelled concretely. *)
Definition ld2 (pkt : list Z) (k : Z) : option Z :=
  match skipn (Z.to_nat k) pkt with
  | a :: b :: _ => Some (a * 256 + b)
  | _ => None
  end.
(** A 32-bit load (BPF_LD+BPF_W+BPF_ABS) at offset [k]. *)
Definition ld4 (pkt : list Z) (k : Z) : option Z :=
  match skipn (Z.to_nat k) pkt with
  | a :: b :: c :: d :: _ => Some (((a * 256 + b) * 256 + c) * 256 + d)
  | _ => None
  end.

(** Execution (kernel, bpf_filter(9)): accumulator [a], index register [x],
    [skip] instructions still to be jumped over.  The result is the number of
    bytes to pass, 0 is "reject"; a load outside the packet rejects. *)
Fixpoint bpf_run (prog : list bpf_insn) (skip : nat) (pkt : list Z) (a x : Z) : Z :=
  match prog with
  | [] => 0
  | i :: prog' =>
      match skip with
      | S k => bpf_run prog' k pkt a x
      | O =>
          match i with
          | LdH_abs k => match ld2 pkt k with Some v => bpf_run prog' 0 pkt v x | None => 0 end
          | LdW_abs k => match ld4 pkt k with Some v => bpf_run prog' 0 pkt v x | None => 0 end
          | LdH_ind k => match ld2 pkt (x + k) with Some v => bpf_run prog' 0 pkt v x | None => 0 end
          | LdW_ind k => match ld4 pkt (x + k) with Some v => bpf_run prog' 0 pkt v x | None => 0 end
          | LdX_imm k => bpf_run prog' 0 pkt a k
          | Jeq k jt jf => bpf_run prog' (if a =? k then jt else jf) pkt a x
          | Ret k => k
          end
      end
  end.

(** reject_filter, filter.h 23-26. *)
Definition reject_filter : list bpf_insn := [Ret 0].

(** ETHER_HDR_LEN is 14; ETH_LLC_CONTROL and ETH_LLC_PROTOID,
    /repo/src/ether.h 65-66. *)
Definition ETHER_HDR_LEN := 14.
Definition ETH_LLC_CONTROL := ETHER_HDR_LEN + 2. (* ether.h 65 *)
Definition ETH_LLC_PROTOID := ETHER_HDR_LEN + 6. (* ether.h 66 *)
(** (u_int)-1, "pass the whole packet". *)
Definition BPF_ALL := 0xffffffff.

(** proto_filter, filter.h 28-114, instruction by instruction. *)
Definition proto_filter : list bpf_insn :=
  [ (* .1q vlan header, 29-32 *)
    LdH_abs 12;
    Jeq ETHERTYPE_VLAN 0 1;
    LdX_imm ETHER_VLAN_ENCAP_LEN;
    (* lldp, 34-44 *)
    LdW_abs 0;
    Jeq 0x0180C200 0 5;
    LdH_abs 4;
    Jeq 0x0000000E 0 3;
    LdH_ind 12;
    Jeq ETHERTYPE_LLDP 0 1;
    Ret BPF_ALL;
    (* llc dsap & ssap, 46-50 *)
    LdH_ind ETHER_HDR_LEN;
    Jeq 0xAAAA 1 0;
    Ret 0;
    (* cdp, 52-65 *)
    LdW_abs 0;
    Jeq 0x01000CCC 0 7;
    LdH_abs 4;
    Jeq 0x0000CCCC 0 5;
    LdW_ind ETH_LLC_CONTROL;
    Jeq 0x0300000C 0 3;
    LdH_ind ETH_LLC_PROTOID;
    Jeq LLC_PID_CDP 0 1;
    Ret BPF_ALL;
    (* edp, 67-80 *)
    LdW_abs 0;
    Jeq 0x000E2B00 0 7;
    LdH_abs 4;
    Jeq 0x00000000 0 5;
    LdW_ind ETH_LLC_CONTROL;
    Jeq 0x03000E2B 0 3;
    LdH_ind ETH_LLC_PROTOID;
    Jeq LLC_PID_EDP 0 1;
    Ret BPF_ALL;
    (* fdp, 82-95 *)
    LdW_abs 0;
    Jeq 0x01E052CC 0 7;
    LdH_abs 4;
    Jeq 0x0000CCCC 0 5;
    LdW_ind ETH_LLC_CONTROL;
    Jeq 0x0300E052 0 3;
    LdH_ind ETH_LLC_PROTOID;
    Jeq LLC_PID_FDP 0 1;
    Ret BPF_ALL;
    (* ndp, 97-110 *)
    LdW_abs 0;
    Jeq 0x01008100 0 7;
    LdH_abs 4;
    Jeq 0x00000100 0 5;
    LdW_ind ETH_LLC_CONTROL;
    Jeq 0x03000081 0 3;
    LdH_ind ETH_LLC_PROTOID;
    Jeq LLC_PID_NDP_HELLO 0 1;
    Ret BPF_ALL;
    (* reject, 112-113 *)
    Ret 0 ].

(** The filter installed on a raw socket, /repo/src/parent.c 667-680: accepts
    or not.  Registers start at 0. *)
Definition socket_filter (opts : Z) (pkt : list Z) : bool :=
  negb (bpf_run (if has opts OPT_RECV then proto_filter else reject_filter) 0 pkt 0 0 =? 0).
