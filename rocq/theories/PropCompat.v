(** The bounded string functions: C52. *)
From Verif Require Import Base Compat SpecCompat CompatProofs.

(** C52, strlcpy: it returns the length of the source; the destination, which
    needs no more than [siz] bytes and no more than the string takes, then holds
    the string cut to [siz - 1] bytes with a NUL, its other bytes unchanged; no
    byte outside the objects is touched. *)
Theorem C52_strlcpy dst src s siz :
  c_string src s -> 0 <= siz -> Z.min siz (zlen s + 1) <= zlen dst ->
  exists dst', strlcpy dst src siz = DOk (dst', zlen s)
  /\ (siz = 0 -> dst' = dst)
  /\ (0 < siz -> holds_string dst dst' (firstn (Z.to_nat (siz - 1)) s)).
Proof. exact (strlcpy_spec dst src s siz). Qed.
Print Assumptions C52_strlcpy.
Example C52_strlcpy_case :
  c_string (bs "eth0" ++ [0; 9]) (bs "eth0")
  /\ strlcpy [1; 2; 3; 4; 5; 6; 7] (bs "eth0" ++ [0; 9]) 7 = DOk (bs "eth0" ++ [0; 6; 7], 4)
  /\ strlcpy [1; 2; 3] (bs "eth0" ++ [0; 9]) 3 = DOk (bs "et" ++ [0], 4)
  /\ strlcpy [1; 2; 3] (bs "eth0" ++ [0; 9]) 4 = DUB
  /\ strlcpy [1] (bs "eth0" ++ [0; 9]) 0 = DOk ([1], 4).
Proof.
  split; [split; [vm_compute; intuition discriminate|exists [9]; reflexivity]|]. repeat split; vm_compute; reflexivity.
Qed.
(** C52, strlcat: the string in the destination is extended and cut to [siz - 1]
    bytes; the length of the full result is returned. *)
Theorem C52_strlcat dst src t s siz :
  c_string dst t -> c_string src s -> zlen t < siz ->
  Z.min siz (zlen t + zlen s + 1) <= zlen dst ->
  exists dst', strlcat dst src siz = DOk (dst', zlen t + zlen s)
  /\ holds_string dst dst' (t ++ firstn (Z.to_nat (siz - zlen t - 1)) s).
Proof. exact (strlcat_spec dst src t s siz). Qed.
Print Assumptions C52_strlcat.
(** If there is no string within [siz] bytes, nothing is written. *)
Theorem C52_strlcat_full dst src s siz :
  c_string src s -> 0 <= siz <= zlen dst -> ~ In 0 (firstn (Z.to_nat siz) dst) ->
  strlcat dst src siz = DOk (dst, siz + zlen s).
Proof. exact (strlcat_full dst src s siz). Qed.
Print Assumptions C52_strlcat_full.
Example C52_strlcat_case :
  c_string (bs "br" ++ [0; 4; 5; 6; 7]) (bs "br")
  /\ strlcat (bs "br" ++ [0; 4; 5; 6; 7]) (bs "100" ++ [0]) 7 = DOk (bs "br100" ++ [0; 7], 5)
  /\ strlcat (bs "br" ++ [0; 4; 5; 6; 7]) (bs "100" ++ [0]) 4 = DOk (bs "br1" ++ [0; 5; 6; 7], 5)
  /\ strlcat (bs "brdg") (bs "100" ++ [0]) 4 = DOk (bs "brdg", 7)
  /\ strlcat (bs "brdg") (bs "100" ++ [0]) 5 = DUB.
Proof.
  split; [split; [vm_compute; intuition discriminate|exists [4; 5; 6; 7]; reflexivity]|]. repeat split; vm_compute; reflexivity.
Qed.
