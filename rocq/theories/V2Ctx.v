(** gtpv2/ie/bearer-context.go:9-156: the constructors of Bearer Contexts.  Nil arguments are
    None.  An array of n elements filled by index and copy is written as the list of its
    elements.  No proofs here. *)
From Verif Require Import Base V2IE V2Codec.
Open Scope N_scope.
Open Scope list_scope.

Section G.
Context (g : N -> bool).
Notation arg := (option ie2).
(** 10-12 NewBearerContext *)
Definition new_bearer_context (ies : list arg) : res (option ie2) := new_grouped g 93 ies.
(** 15-30 NewBearerContextWithinCreateBearerRequest *)
Definition within_create_bearer_request (ebi tft qos charge_id flags pco epco mplr : arg) (fteids : list arg) :=
  new_bearer_context ([ebi; tft; qos; charge_id; flags; pco; epco; mplr] ++ fteids).
(** 33-45 NewBearerContextWithinCreateBearerResponse *)
Definition within_create_bearer_response (ebi cause pco rannas_cause epco : arg) (fteids : list arg) :=
  new_bearer_context ([ebi; cause; pco; rannas_cause; epco] ++ fteids).
(** 48-50 NewBearerContextWithinDeleteBearerRequest *)
Definition within_delete_bearer_request (ebi cause : arg) := new_bearer_context [ebi; cause].
(** 53-55 NewBearerContextWithinDeleteBearerResponse *)
Definition within_delete_bearer_response (ebi cause pco rannas_cause epco : arg) :=
  new_bearer_context [ebi; cause; pco; rannas_cause; epco].
(** 58-60 NewBearerContextWithinModifyBearerCommand *)
Definition within_modify_bearer_command (ebi qos : arg) := new_bearer_context [ebi; qos].
(** 63-65 NewBearerContextWithinUpdateBearerRequest *)
Definition within_update_bearer_request (ebi tft qos flags pco apco epco mplr : arg) :=
  new_bearer_context [ebi; tft; qos; flags; pco; apco; epco; mplr].
(** 68-80 NewBearerContextWithinUpdateBearerResponse *)
Definition within_update_bearer_response (ebi cause pco rannas_cause epco : arg) (fteids : list arg) :=
  new_bearer_context ([ebi; cause; pco; rannas_cause; epco] ++ fteids).
(** 83-85 NewBearerContextWithinDeleteBearerCommand *)
Definition within_delete_bearer_command (ebi flags rannas_cause : arg) := new_bearer_context [ebi; flags; rannas_cause].
(** 88-90 NewBearerContextWithinDeleteBearerFailureIndication *)
Definition within_delete_bearer_failure (ebi cause : arg) := new_bearer_context [ebi; cause].
(** 93-101 NewBearerContextWithinCreateIndirectDataForwardingTunnelRequest *)
Definition within_create_indirect_request (ebi : arg) (fteids : list arg) := new_bearer_context ([ebi] ++ fteids).
(** 104-113 NewBearerContextWithinCreateIndirectDataForwardingTunnelResponse *)
Definition within_create_indirect_response (ebi cause : arg) (fteids : list arg) := new_bearer_context ([ebi; cause] ++ fteids).
(** 116-129 NewBearerContextWithinForwardRelocationRequest *)
Definition within_forward_relocation (ebi tft qos container ti flags : arg) (fteids : list arg) :=
  new_bearer_context ([ebi; tft; qos; container; ti; flags] ++ fteids).
(** 132-144 NewBearerContextWithinContextResponse *)
Definition within_context_response (ebi tft qos container ti : arg) (fteids : list arg) :=
  new_bearer_context ([ebi; tft; qos; container; ti] ++ fteids).
(** 147-155 NewBearerContextWithinContextAcknowledge *)
Definition within_context_ack (ebi fwd_fteid : arg) := new_bearer_context [ebi; fwd_fteid].
End G.
