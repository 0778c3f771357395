(** The constructors of Bearer TFT and Traffic Aggregate Description IEs for one operation.
    No proofs here. *)
From Verif Require Import Base V2IE V2Codec V2Tft.
Local Open Scope N_scope.

(** [mk] is NewBearerTFT (bearer-tft.go:22-30) or NewTrafficAggregateDescription (tad.go:11-19) *)
Definition tft_ctor : Type := N -> list (option pfilter) -> bytes -> list (option param) -> res (option ie2).
(** bearer-tft.go:33-35, tad.go:22-24 *)
Definition op_create (mk : tft_ctor) fs ps := mk 1 fs [] ps.
(** bearer-tft.go:38-40, tad.go:27-29 *)
Definition op_add (mk : tft_ctor) fs ps := mk 3 fs [] ps.
(** bearer-tft.go:43-45, tad.go:32-34 *)
Definition op_replace (mk : tft_ctor) fs ps := mk 4 fs [] ps.
(** bearer-tft.go:48-50, tad.go:37-39 *)
Definition op_delete_filters (mk : tft_ctor) ids ps := mk 5 [] ids ps.
(** bearer-tft.go:53-55, tad.go:42-44 *)
Definition op_delete_tft (mk : tft_ctor) ps := mk 2 [] [] ps.
(** bearer-tft.go:58-60, tad.go:47-49 *)
Definition op_none (mk : tft_ctor) ps := mk 6 [] [] ps.
