(** A game about the MIC: the one of SpecPry.v, in which they say at last a MIC and the text
    that is to be under it. *)
From Verif Require Import Base Prims.

(** What is said: the 16 bytes of the MIC, then the text. *)
Definition said_mic (G : bytes) : bytes := firstn 16 G.
Definition said_text (G : bytes) : bytes := skipn 16 G.
(** A server with the session key [K] takes it. *)
Definition mic_taken (P : prims) (K G : bytes) : Prop := p_hmac_md5 P K (said_text G) = said_mic G.
