(** Model of my_chksum, /repo/src/util.c 259-282, on a little endian host. *)
From Verif Require Import Base.

(** The loop "sum += *d++" over host order (little endian) 16-bit words and
    the odd byte, util.c 267-277.  [sum] is a uint32_t.  On a little endian
    host htons(b) = b << 8 and htons(b << 8) = b. *)
Fixpoint chk_loop (cisco : bool) (sum : Z) (d : list Z) : Z :=
  match d with
  | a :: b :: d' => chk_loop cisco ((sum + (a + 256 * b)) mod 4294967296) d'
  | [a] => (sum + (if cisco then 256 * a else a)) mod 4294967296
  | [] => sum
  end.

(** my_chksum: the uint16_t returned (host order), util.c 263-282. *)
Definition my_chksum (d : list Z) (cisco : bool) : Z :=
  let sum := chk_loop cisco 0 d in
  let sum := sum / 65536 + sum mod 65536 in
  let sum := (sum + sum / 65536) mod 4294967296 in
  (- sum - 1) mod 65536.

(** Storing a host order uint16_t in memory (little endian). *)
Definition le16 (v : Z) : list Z := [v mod 256; (v / 256) mod 256].
