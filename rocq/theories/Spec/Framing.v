(** RFC 4880 sections 4.2 and 5.2.3.1: length headers, stated without reference to the
    model of the code. *)
From Verif Require Export Model.Base Spec.Bytes.

(** Section 4.2.2.1-4.2.2.3: [h] is a legal new-format (non-partial) header for length [l]. *)
Inductive new_len (l : N) : bytes -> Prop :=
| NL1 : l <= 191 -> new_len l [l]
| NL2 o1 o2 : 192 <= o1 <= 223 -> o2 < 256 -> l = (o1 - 192) * 256 + o2 + 192 ->
    new_len l [o1; o2]
| NL5 : l < 2 ^ 32 -> new_len l (255 :: be 4 l).

(** Section 4.2.1: [h] is a legal old-format header for length [l] with length type [t]. *)
Inductive old_len (l : N) : N -> bytes -> Prop :=
| OL1 : l < 2 ^ 8 -> old_len l 0 [l]
| OL2 : l < 2 ^ 16 -> old_len l 1 (be 2 l)
| OL4 : l < 2 ^ 32 -> old_len l 2 (be 4 l).

(** Section 5.2.3.1: subpacket lengths. *)
Inductive sub_len (l : N) : bytes -> Prop :=
| SL1 : l < 192 -> sub_len l [l]
| SL2 o1 o2 : 192 <= o1 < 255 -> o2 < 256 -> l = (o1 - 192) * 256 + o2 + 192 ->
    sub_len l [o1; o2]
| SL5 : l < 2 ^ 32 -> sub_len l (255 :: be 4 l).

(** Section 4.2.2.4: [w] is the body [b] cut in partial chunks; the last piece, of length
    [n], has an ordinary header.  [h] is that last header. *)
Inductive partial_body : bytes -> bytes -> bytes -> N -> Prop :=
| PB_last b h : new_len (len b) h -> partial_body b (h ++ b) h (len b)
| PB_chunk k c b w h n : k <= 30 -> len c = 2 ^ k -> partial_body b w h n ->
    partial_body (c ++ b) (224 + k :: c ++ w) h n.

(** The body a reader reports for input [data]. *)
Definition denotes (data : bytes) (start l : N) (body : bytes) : Prop :=
  exists pre post, data = pre ++ body ++ post /\ start = len pre /\ l = len body.
