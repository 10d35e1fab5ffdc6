(** Repeated advertisements: vocabulary of C130. *)
From Verif Require Import Base Types Tlv Wire Util Child Netif Send SpecSend SpecFlow.

(** While the kernel answers the same: every event of the machine comes with [os]. *)
Definition steady (os : nos) (es : list sevent) : Prop :=
  forall h, In h (host_parts es) -> h = HRun os \/ exists hatype flags index, h = HLink os hatype flags index.

(** The same frame of the same protocol on the same interface; in an EDP frame
    (protocol 2) the checksum and the sequence number, bytes 26 to 29, may differ. *)
Definition same_frame (x y : Z * Z * list Z) : Prop :=
  fst x = fst y /\ length (snd x) = length (snd y)
  /\ forall k, (snd (fst x) = 2 -> (k < 26 \/ 30 <= k)%nat) -> nth_error (snd x) k = nth_error (snd y) k.
