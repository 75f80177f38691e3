(** CrashSpec: which messages crash the decoder (C43), in terms of the bytes of the message. *)
From Verif Require Import GoBase NmeaSpec.
Open Scope Z_scope.
Open Scope list_scope.

(** At byte p of the message stands a text of [size] bytes whose first byte, its length, leads
    past byte 255. *)
Definition text_overflow (D : bytes) (p size : Z) : Prop :=
  p + size <= zlen D /\ exists n, zget D p = Some n /\ 256 <= p + n.

(** The company code of a proprietary message: its first eleven bits. *)
Definition company (D : bytes) : Z := bits (le_value D) 0 11.

(** The SonicHub messages (PGN 130816) with a text: proprietary id, first byte of the text. *)
Definition sonichub_texts : list (Z * Z) := [(8, 7); (12, 11); (14, 9); (15, 9); (16, 9); (19, 12)].
(** The Fusion messages (PGN 130820) with a text: message id, first byte and size of the text. *)
Definition fusion_texts : list (Z * Z * Z) :=
  [(2, 8, 5); (5, 9, 10); (6, 9, 10); (7, 9, 10); (11, 11, 10); (17, 11, 5); (33, 4, 10);
   (36, 7, 100); (37, 7, 100); (38, 7, 100); (40, 7, 100); (41, 3, 5); (44, 3, 5); (45, 5, 60)].

(** Message D of this PGN, with [behind] more bytes in the memory allocated for it. *)
Inductive fatal (D : bytes) (behind : Z) : Z -> Prop :=
| fatal_address_claim : zlen D = 0 \/ zlen D = 6 -> zlen D + behind < 7 -> fatal D behind 60928
| fatal_sonichub id p : zget D 3 = Some id -> In (id, p) sonichub_texts -> text_overflow D p 32 -> fatal D behind 130816
| fatal_sonichub_fm : company D = 275 -> zget D 3 = Some 4 -> text_overflow D 11 32 -> fatal D behind 130816
| fatal_fusion id p size : company D = 419 -> zget D 2 = Some id -> In (id, p, size) fusion_texts ->
    text_overflow D p size -> fatal D behind 130820
| fatal_ais_24 b : zget D 2 = Some b -> 2 <= b mod 64 -> fatal D behind 130842
| fatal_serial : text_overflow D 2 2 -> fatal D behind 130847
| fatal_info pgn : 262211 <= pgn <= 262213 -> text_overflow D 11 1 -> fatal D behind pgn.
