(** A schedule for every listed data race. *)
From Coq Require Import String Bool Arith.
From Verif Require Import Base RaceModel RaceSpec RaceProofs RaceBound RaceRun.
Open Scope string_scope.
Open Scope N_scope.
Open Scope list_scope.

(** objects 1 to 5: a UPlaneConn, a Conn, a Session with its default bearer, a Relay *)
Definition base_acts : list act := [C "NewUPlaneConn" []; R 0 17; C "NewConn" []; R 1 11; C "NewSession" []; R 2 25; C "NewRelay" []; R 3 7].
(** two functions, a field, the numbers of their goroutines, and what happens first *)
Definition witness : Type := (string * string * field * nat * nat * list act)%type.
Definition witnesses : list witness := [
  ("UPlaneConn.ListenAndServe", "UPlaneConn.ListenAndServe", UPkt, 4%nat, 5%nat, [C "UPlaneConn.ListenAndServe" [1]; R 4 5; C "UPlaneConn.ListenAndServe" [1]]);
  ("UPlaneConn.ListenAndServe", "UPlaneConn.EnableKernelGTP", UPkt, 4%nat, 5%nat, [C "UPlaneConn.ListenAndServe" [1]; R 4 5; C "UPlaneConn.EnableKernelGTP" [1]; R 5 2]);
  ("UPlaneConn.ListenAndServe", "UPlaneConn.ReadFrom", UPkt, 4%nat, 5%nat, [C "UPlaneConn.ListenAndServe" [1]; R 4 5; C "UPlaneConn.ReadFrom" [1]]);
  ("UPlaneConn.ListenAndServe", "UPlaneConn.LocalAddr", UPkt, 4%nat, 5%nat, [C "UPlaneConn.ListenAndServe" [1]; R 4 5; C "UPlaneConn.LocalAddr" [1]]);
  ("UPlaneConn.ListenAndServe", "UPlaneConn.SetDeadline", UPkt, 4%nat, 5%nat, [C "UPlaneConn.ListenAndServe" [1]; R 4 5; C "UPlaneConn.SetDeadline" [1]]);
  ("UPlaneConn.ListenAndServe", "UPlaneConn.SetReadDeadline", UPkt, 4%nat, 5%nat, [C "UPlaneConn.ListenAndServe" [1]; R 4 5; C "UPlaneConn.SetReadDeadline" [1]]);
  ("UPlaneConn.ListenAndServe", "UPlaneConn.SetWriteDeadline", UPkt, 4%nat, 5%nat, [C "UPlaneConn.ListenAndServe" [1]; R 4 5; C "UPlaneConn.SetWriteDeadline" [1]]);
  ("UPlaneConn.ListenAndServe", "UPlaneConn.WriteToWithDSCPECN", UPkt, 4%nat, 5%nat, [C "UPlaneConn.ListenAndServe" [1]; R 4 5; C "UPlaneConn.WriteToWithDSCPECN" [1]; R 5 1]);
  ("UPlaneConn.ListenAndServe", "UPlaneConn.ErrorIndication", UPkt, 4%nat, 5%nat, [C "UPlaneConn.ListenAndServe" [1]; R 4 5; C "UPlaneConn.ErrorIndication" [1]; R 5 1]);
  ("UPlaneConn.ListenAndServe", "Relay.Close", UPkt, 4%nat, 5%nat, [C "UPlaneConn.ListenAndServe" [1]; R 4 5; C "Relay.Close" [5]; R 5 1; M 5 0 1; R 5 2]);
  ("UPlaneConn.ListenAndServe", "UPlaneConn closing", UPkt, 4%nat, 6%nat, [C "UPlaneConn.ListenAndServe" [1]; R 4 3; C "UPlaneConn.ListenAndServe" [1]; R 5 1; M 5 1 0; R 5 10; R 4 2; R 6 4]);
  ("UPlaneConn.ListenAndServe", "UPlaneConn datagram", UPkt, 4%nat, 7%nat, [C "UPlaneConn.ListenAndServe" [1]; R 4 3; C "UPlaneConn.ListenAndServe" [1]; R 5 1; M 5 1 0; R 5 11; M 5 1 0; R 5 4; R 4 2; R 7 3]);
  ("UPlaneConn.EnableKernelGTP", "UPlaneConn.EnableKernelGTP", UPkt, 4%nat, 5%nat, [C "UPlaneConn.EnableKernelGTP" [1]; R 4 2; C "UPlaneConn.EnableKernelGTP" [1]; R 5 2]);
  ("UPlaneConn.EnableKernelGTP", "UPlaneConn.ReadFrom", UPkt, 4%nat, 5%nat, [C "UPlaneConn.EnableKernelGTP" [1]; R 4 2; C "UPlaneConn.ReadFrom" [1]]);
  ("UPlaneConn.EnableKernelGTP", "UPlaneConn.LocalAddr", UPkt, 4%nat, 5%nat, [C "UPlaneConn.EnableKernelGTP" [1]; R 4 2; C "UPlaneConn.LocalAddr" [1]]);
  ("UPlaneConn.EnableKernelGTP", "UPlaneConn.SetDeadline", UPkt, 4%nat, 5%nat, [C "UPlaneConn.EnableKernelGTP" [1]; R 4 2; C "UPlaneConn.SetDeadline" [1]]);
  ("UPlaneConn.EnableKernelGTP", "UPlaneConn.SetReadDeadline", UPkt, 4%nat, 5%nat, [C "UPlaneConn.EnableKernelGTP" [1]; R 4 2; C "UPlaneConn.SetReadDeadline" [1]]);
  ("UPlaneConn.EnableKernelGTP", "UPlaneConn.SetWriteDeadline", UPkt, 4%nat, 5%nat, [C "UPlaneConn.EnableKernelGTP" [1]; R 4 2; C "UPlaneConn.SetWriteDeadline" [1]]);
  ("UPlaneConn.EnableKernelGTP", "UPlaneConn.WriteToWithDSCPECN", UPkt, 4%nat, 5%nat, [C "UPlaneConn.EnableKernelGTP" [1]; R 4 2; C "UPlaneConn.WriteToWithDSCPECN" [1]; R 5 1]);
  ("UPlaneConn.EnableKernelGTP", "UPlaneConn.ErrorIndication", UPkt, 4%nat, 5%nat, [C "UPlaneConn.EnableKernelGTP" [1]; R 4 2; C "UPlaneConn.ErrorIndication" [1]; R 5 1]);
  ("UPlaneConn.EnableKernelGTP", "Relay.Close", UPkt, 4%nat, 5%nat, [C "UPlaneConn.EnableKernelGTP" [1]; R 4 2; C "Relay.Close" [5]; R 5 1; M 5 0 1; R 5 2]);
  ("UPlaneConn.EnableKernelGTP", "UPlaneConn closing", UPkt, 4%nat, 6%nat, [C "UPlaneConn.EnableKernelGTP" [1]; R 4 2; C "UPlaneConn.ListenAndServe" [1]; R 5 1; M 5 1 0; R 5 10; R 6 4]);
  ("UPlaneConn.EnableKernelGTP", "UPlaneConn datagram", UPkt, 4%nat, 7%nat, [C "UPlaneConn.EnableKernelGTP" [1]; R 4 2; C "UPlaneConn.ListenAndServe" [1]; R 5 1; M 5 1 0; R 5 11; M 5 1 0; R 5 4; R 7 3]);
  ("UPlaneConn.EnableKernelGTP", "UPlaneConn.WriteTo", UPkt, 4%nat, 5%nat, [C "UPlaneConn.EnableKernelGTP" [1]; R 4 2; C "UPlaneConn.WriteTo" [1]; R 5 3]);
  ("UPlaneConn.EnableKernelGTP", "UPlaneConn.WriteToGTP", UPkt, 4%nat, 5%nat, [C "UPlaneConn.EnableKernelGTP" [1]; R 4 2; C "UPlaneConn.WriteToGTP" [1]; R 5 4]);
  ("UPlaneConn.EnableKernelGTP", "UPlaneConn.EchoRequest", UPkt, 4%nat, 5%nat, [C "UPlaneConn.EnableKernelGTP" [1]; R 4 2; C "UPlaneConn.EchoRequest" [1]; R 5 4]);
  ("UPlaneConn.EnableKernelGTP", "UPlaneConn.EchoResponse", UPkt, 4%nat, 5%nat, [C "UPlaneConn.EnableKernelGTP" [1]; R 4 2; C "UPlaneConn.EchoResponse" [1]; R 5 4]);
  ("UPlaneConn.EnableKernelGTP", "UPlaneConn.RespondTo", UPkt, 4%nat, 5%nat, [C "UPlaneConn.EnableKernelGTP" [1]; R 4 2; C "UPlaneConn.RespondTo" [1]; R 5 4]);
  ("UPlaneConn.EnableKernelGTP", "Relay running", UPkt, 4%nat, 6%nat, [C "UPlaneConn.EnableKernelGTP" [1]; R 4 2; C "Relay.Run" [5]; R 5 2; M 6 1 0; R 6 9; M 6 0 1; R 6 5]);
  ("UPlaneConn.RelayTo", "UPlaneConn datagram", URelay, 4%nat, 7%nat, [C "UPlaneConn.RelayTo" [1]; C "UPlaneConn.ListenAndServe" [1]; R 5 1; M 5 1 0; R 5 11; M 5 1 0; R 5 4; R 4 6]);
  ("UPlaneConn.RelayTo", "UPlaneConn.EnableKernelGTP", URelay, 4%nat, 5%nat, [C "UPlaneConn.RelayTo" [1]; R 4 6; C "UPlaneConn.EnableKernelGTP" [1]; R 5 1; M 5 1 0; R 5 17]);
  ("UPlaneConn.CloseRelay", "UPlaneConn datagram", URelay, 4%nat, 7%nat, [C "UPlaneConn.CloseRelay" [1]; C "UPlaneConn.ListenAndServe" [1]; R 5 1; M 5 1 0; R 5 11; M 5 1 0; R 5 4; R 4 4]);
  ("UPlaneConn.CloseRelay", "UPlaneConn.EnableKernelGTP", URelay, 4%nat, 5%nat, [C "UPlaneConn.CloseRelay" [1]; R 4 4; C "UPlaneConn.EnableKernelGTP" [1]; R 5 1; M 5 1 0; R 5 17]);
  ("UPlaneConn.EnableKernelGTP", "UPlaneConn datagram", URelay, 5%nat, 8%nat, [C "UPlaneConn.RelayTo" [1]; R 4 10; C "UPlaneConn.EnableKernelGTP" [1]; R 5 1; M 5 1 0; R 5 21; C "UPlaneConn.ListenAndServe" [1]; R 6 4; M 6 1 0; R 6 4]);
  ("UPlaneConn.EnableKernelGTP", "UPlaneConn.EnableKernelGTP", URelay, 5%nat, 6%nat, [C "UPlaneConn.RelayTo" [1]; R 4 10; C "UPlaneConn.EnableKernelGTP" [1]; R 5 1; M 5 1 0; R 5 21; C "UPlaneConn.EnableKernelGTP" [1]; R 6 16]);
  ("UPlaneConn.EnableErrorIndication", "UPlaneConn datagram", UErrInd, 5%nat, 8%nat, [C "UPlaneConn.EnableKernelGTP" [1]; R 4 1; M 4 1 0; R 4 22; C "UPlaneConn.EnableErrorIndication" [1]; R 5 3; C "UPlaneConn.ListenAndServe" [1]; R 6 4; M 6 1 0; R 6 4; R 8 1; M 8 1 0; R 8 2]);
  ("UPlaneConn.DisableErrorIndication", "UPlaneConn datagram", UErrInd, 5%nat, 8%nat, [C "UPlaneConn.EnableKernelGTP" [1]; R 4 1; M 4 1 0; R 4 22; C "UPlaneConn.DisableErrorIndication" [1]; R 5 3; C "UPlaneConn.ListenAndServe" [1]; R 6 4; M 6 1 0; R 6 4; R 8 1; M 8 1 0; R 8 2]);
  ("UPlaneConn.EnableKernelGTP", "UPlaneConn.EnableKernelGTP", UKernel, 4%nat, 5%nat, [C "UPlaneConn.EnableKernelGTP" [1]; R 4 1; M 4 1 0; R 4 15; C "UPlaneConn.EnableKernelGTP" [1]; R 5 14]);
  ("UPlaneConn.EnableKernelGTP", "UPlaneConn.RelayTo", UKernel, 4%nat, 5%nat, [C "UPlaneConn.EnableKernelGTP" [1]; R 4 1; M 4 1 0; R 4 15; C "UPlaneConn.RelayTo" [1]]);
  ("UPlaneConn.EnableKernelGTP", "UPlaneConn.CloseRelay", UKernel, 4%nat, 5%nat, [C "UPlaneConn.EnableKernelGTP" [1]; R 4 1; M 4 1 0; R 4 15; C "UPlaneConn.CloseRelay" [1]]);
  ("UPlaneConn.EnableKernelGTP", "UPlaneConn.AddTunnel", UKernel, 4%nat, 5%nat, [C "UPlaneConn.EnableKernelGTP" [1]; R 4 1; M 4 1 0; R 4 15; C "UPlaneConn.AddTunnel" [1]]);
  ("UPlaneConn.EnableKernelGTP", "UPlaneConn.AddTunnelOverride", UKernel, 4%nat, 5%nat, [C "UPlaneConn.EnableKernelGTP" [1]; R 4 1; M 4 1 0; R 4 15; C "UPlaneConn.AddTunnelOverride" [1]]);
  ("UPlaneConn.EnableKernelGTP", "UPlaneConn.DelTunnelByITEI", UKernel, 4%nat, 5%nat, [C "UPlaneConn.EnableKernelGTP" [1]; R 4 1; M 4 1 0; R 4 15; C "UPlaneConn.DelTunnelByITEI" [1]]);
  ("UPlaneConn.EnableKernelGTP", "UPlaneConn.DelTunnelByMSAddress", UKernel, 4%nat, 5%nat, [C "UPlaneConn.EnableKernelGTP" [1]; R 4 1; M 4 1 0; R 4 15; C "UPlaneConn.DelTunnelByMSAddress" [1]]);
  ("UPlaneConn.EnableKernelGTP", "UPlaneConn closing", UKernel, 4%nat, 6%nat, [C "UPlaneConn.EnableKernelGTP" [1]; R 4 1; M 4 1 0; R 4 15; C "UPlaneConn.ListenAndServe" [1]; R 5 3; R 6 1]);
  ("UPlaneConn.EnableKernelGTP", "UPlaneConn.EnableKernelGTP", UFile, 4%nat, 5%nat, [C "UPlaneConn.EnableKernelGTP" [1]; R 4 1; M 4 1 0; R 4 13; C "UPlaneConn.EnableKernelGTP" [1]; R 5 12]);
  ("UPlaneConn.EnableKernelGTP", "UPlaneConn closing", UFile, 5%nat, 7%nat, [C "UPlaneConn.EnableKernelGTP" [1]; R 4 1; M 4 1 0; R 4 22; C "UPlaneConn.EnableKernelGTP" [1]; R 5 12; C "UPlaneConn.ListenAndServe" [1]; R 6 3; R 7 3]);
  ("UPlaneConn.EnableKernelGTP", "UPlaneConn.EnableKernelGTP", ULink, 4%nat, 5%nat, [C "UPlaneConn.EnableKernelGTP" [1]; R 4 1; M 4 1 0; R 4 7; C "UPlaneConn.EnableKernelGTP" [1]; R 5 6]);
  ("UPlaneConn.EnableKernelGTP", "UPlaneConn.AddTunnel", ULink, 5%nat, 6%nat, [C "UPlaneConn.EnableKernelGTP" [1]; R 4 1; M 4 1 0; R 4 22; C "UPlaneConn.EnableKernelGTP" [1]; R 5 6; C "UPlaneConn.AddTunnel" [1]; R 6 1]);
  ("UPlaneConn.EnableKernelGTP", "UPlaneConn.AddTunnelOverride", ULink, 5%nat, 6%nat, [C "UPlaneConn.EnableKernelGTP" [1]; R 4 1; M 4 1 0; R 4 22; C "UPlaneConn.EnableKernelGTP" [1]; R 5 6; C "UPlaneConn.AddTunnelOverride" [1]; R 6 2]);
  ("UPlaneConn.EnableKernelGTP", "UPlaneConn.DelTunnelByITEI", ULink, 5%nat, 6%nat, [C "UPlaneConn.EnableKernelGTP" [1]; R 4 1; M 4 1 0; R 4 22; C "UPlaneConn.EnableKernelGTP" [1]; R 5 6; C "UPlaneConn.DelTunnelByITEI" [1]; R 6 1]);
  ("UPlaneConn.EnableKernelGTP", "UPlaneConn.DelTunnelByMSAddress", ULink, 5%nat, 6%nat, [C "UPlaneConn.EnableKernelGTP" [1]; R 4 1; M 4 1 0; R 4 22; C "UPlaneConn.EnableKernelGTP" [1]; R 5 6; C "UPlaneConn.DelTunnelByMSAddress" [1]; R 6 1]);
  ("UPlaneConn.EnableKernelGTP", "UPlaneConn.Link", ULink, 4%nat, 5%nat, [C "UPlaneConn.EnableKernelGTP" [1]; R 4 1; M 4 1 0; R 4 7; C "UPlaneConn.Link" [1]]);
  ("UPlaneConn.EnableKernelGTP", "UPlaneConn closing", ULink, 5%nat, 7%nat, [C "UPlaneConn.EnableKernelGTP" [1]; R 4 1; M 4 1 0; R 4 22; C "UPlaneConn.EnableKernelGTP" [1]; R 5 6; C "UPlaneConn.ListenAndServe" [1]; R 6 3; R 7 14]);
  ("Conn.ListenAndServe", "Conn.Listen", CPkt, 4%nat, 6%nat, [C "Conn.ListenAndServe" [2]; M 4 1 0; R 4 13; C "Conn.Listen" [2]; R 6 3]);
  ("Conn.Listen", "Conn.Serve", CPkt, 4%nat, 5%nat, [C "Conn.Listen" [2]; R 4 3; C "Conn.Serve" [2]; R 5 5]);
  ("Conn.Listen", "Conn.ReadFrom", CPkt, 4%nat, 5%nat, [C "Conn.Listen" [2]; R 4 3; C "Conn.ReadFrom" [2]]);
  ("Conn.Listen", "Conn.WriteTo", CPkt, 4%nat, 5%nat, [C "Conn.Listen" [2]; R 4 3; C "Conn.WriteTo" [2]]);
  ("Conn.Listen", "Conn.LocalAddr", CPkt, 4%nat, 5%nat, [C "Conn.Listen" [2]; R 4 3; C "Conn.LocalAddr" [2]]);
  ("Conn.Listen", "Conn.SetDeadline", CPkt, 4%nat, 5%nat, [C "Conn.Listen" [2]; R 4 3; C "Conn.SetDeadline" [2]]);
  ("Conn.Listen", "Conn.SetReadDeadline", CPkt, 4%nat, 5%nat, [C "Conn.Listen" [2]; R 4 3; C "Conn.SetReadDeadline" [2]]);
  ("Conn.Listen", "Conn.SetWriteDeadline", CPkt, 4%nat, 5%nat, [C "Conn.Listen" [2]; R 4 3; C "Conn.SetWriteDeadline" [2]]);
  ("Conn.Listen", "Conn.VersionNotSupportedIndication", CPkt, 4%nat, 5%nat, [C "Conn.Listen" [2]; R 4 3; C "Conn.VersionNotSupportedIndication" [2]; R 5 1]);
  ("Conn serving", "Conn.Listen", CPkt, 5%nat, 7%nat, [C "Dial" []; R 4 11; M 4 1 0; R 4 61; R 5 6; C "Conn.Listen" [6]; R 7 3]);
  ("Conn.Listen", "Conn closing", CPkt, 4%nat, 6%nat, [C "Conn.Listen" [2]; R 4 3; C "Conn.Serve" [2]; R 5 2; R 6 1]);
  ("Conn.Listen", "Conn datagram", CPkt, 5%nat, 8%nat, [C "Conn.Listen" [2]; R 4 7; C "Conn.Listen" [2]; R 5 3; C "Conn.Serve" [2]; R 6 3; M 6 1 0; R 6 4; R 8 3; M 8 1 0; R 8 4]);
  ("Conn.SendMessageTo", "Conn.Listen", CPkt, 4%nat, 5%nat, [C "Conn.SendMessageTo" [2]; R 4 20; M 4 1 0; R 4 1; C "Conn.Listen" [2]; R 5 3]);
  ("Conn.EchoRequest", "Conn.Listen", CPkt, 4%nat, 5%nat, [C "Conn.EchoRequest" [2]; R 4 20; M 4 1 0; R 4 1; C "Conn.Listen" [2]; R 5 3]);
  ("Conn.Listen", "Conn.EchoResponse", CPkt, 4%nat, 5%nat, [C "Conn.Listen" [2]; R 4 3; C "Conn.EchoResponse" [2]; R 5 4]);
  ("Conn.Listen", "Conn.RespondTo", CPkt, 4%nat, 5%nat, [C "Conn.Listen" [2]; R 4 3; C "Conn.RespondTo" [2]; R 5 4]);
  ("Conn.CreateSession", "Conn.Listen", CPkt, 4%nat, 5%nat, [C "Conn.CreateSession" [2]; R 4 50; M 4 1 0; R 4 1; C "Conn.Listen" [2]; R 5 3]);
  ("Conn.DeleteSession", "Conn.Listen", CPkt, 4%nat, 5%nat, [C "Conn.DeleteSession" [2; 3]; R 4 25; M 4 1 0; R 4 1; C "Conn.Listen" [2]; R 5 3]);
  ("Conn.ModifyBearer", "Conn.Listen", CPkt, 4%nat, 5%nat, [C "Conn.ModifyBearer" [2; 3]; R 4 25; M 4 1 0; R 4 1; C "Conn.Listen" [2]; R 5 3]);
  ("Conn.DeleteBearer", "Conn.Listen", CPkt, 4%nat, 5%nat, [C "Conn.DeleteBearer" [2; 3]; R 4 25; M 4 1 0; R 4 1; C "Conn.Listen" [2]; R 5 3]);
  ("Conn.ListenAndServe", "Conn.ListenAndServe", CPkt, 4%nat, 6%nat, [C "Conn.ListenAndServe" [2]; M 4 1 0; R 4 13; C "Conn.ListenAndServe" [2]; R 6 4]);
  ("Conn.ListenAndServe", "Conn.Serve", CPkt, 4%nat, 5%nat, [C "Conn.ListenAndServe" [2]; R 4 4; C "Conn.Serve" [2]; R 5 5]);
  ("Conn.ListenAndServe", "Conn.ReadFrom", CPkt, 4%nat, 5%nat, [C "Conn.ListenAndServe" [2]; R 4 4; C "Conn.ReadFrom" [2]]);
  ("Conn.ListenAndServe", "Conn.WriteTo", CPkt, 4%nat, 5%nat, [C "Conn.ListenAndServe" [2]; R 4 4; C "Conn.WriteTo" [2]]);
  ("Conn.ListenAndServe", "Conn.LocalAddr", CPkt, 4%nat, 5%nat, [C "Conn.ListenAndServe" [2]; R 4 4; C "Conn.LocalAddr" [2]]);
  ("Conn.ListenAndServe", "Conn.SetDeadline", CPkt, 4%nat, 5%nat, [C "Conn.ListenAndServe" [2]; R 4 4; C "Conn.SetDeadline" [2]]);
  ("Conn.ListenAndServe", "Conn.SetReadDeadline", CPkt, 4%nat, 5%nat, [C "Conn.ListenAndServe" [2]; R 4 4; C "Conn.SetReadDeadline" [2]]);
  ("Conn.ListenAndServe", "Conn.SetWriteDeadline", CPkt, 4%nat, 5%nat, [C "Conn.ListenAndServe" [2]; R 4 4; C "Conn.SetWriteDeadline" [2]]);
  ("Conn.ListenAndServe", "Conn.VersionNotSupportedIndication", CPkt, 4%nat, 5%nat, [C "Conn.ListenAndServe" [2]; R 4 4; C "Conn.VersionNotSupportedIndication" [2]; R 5 1]);
  ("Conn serving", "Conn.ListenAndServe", CPkt, 5%nat, 7%nat, [C "Dial" []; R 4 11; M 4 1 0; R 4 61; R 5 6; C "Conn.ListenAndServe" [6]; R 7 4]);
  ("Conn.ListenAndServe", "Conn closing", CPkt, 4%nat, 6%nat, [C "Conn.ListenAndServe" [2]; R 4 4; C "Conn.Serve" [2]; R 5 2; R 6 1]);
  ("Conn.ListenAndServe", "Conn datagram", CPkt, 5%nat, 8%nat, [C "Conn.Listen" [2]; R 4 7; C "Conn.ListenAndServe" [2]; R 5 4; C "Conn.Serve" [2]; R 6 3; M 6 1 0; R 6 4; R 8 3; M 8 1 0; R 8 4]);
  ("Conn.SendMessageTo", "Conn.ListenAndServe", CPkt, 4%nat, 5%nat, [C "Conn.SendMessageTo" [2]; R 4 20; M 4 1 0; R 4 1; C "Conn.ListenAndServe" [2]; R 5 4]);
  ("Conn.EchoRequest", "Conn.ListenAndServe", CPkt, 4%nat, 5%nat, [C "Conn.EchoRequest" [2]; R 4 20; M 4 1 0; R 4 1; C "Conn.ListenAndServe" [2]; R 5 4]);
  ("Conn.ListenAndServe", "Conn.EchoResponse", CPkt, 4%nat, 5%nat, [C "Conn.ListenAndServe" [2]; R 4 4; C "Conn.EchoResponse" [2]; R 5 4]);
  ("Conn.ListenAndServe", "Conn.RespondTo", CPkt, 4%nat, 5%nat, [C "Conn.ListenAndServe" [2]; R 4 4; C "Conn.RespondTo" [2]; R 5 4]);
  ("Conn.CreateSession", "Conn.ListenAndServe", CPkt, 4%nat, 5%nat, [C "Conn.CreateSession" [2]; R 4 50; M 4 1 0; R 4 1; C "Conn.ListenAndServe" [2]; R 5 4]);
  ("Conn.DeleteSession", "Conn.ListenAndServe", CPkt, 4%nat, 5%nat, [C "Conn.DeleteSession" [2; 3]; R 4 25; M 4 1 0; R 4 1; C "Conn.ListenAndServe" [2]; R 5 4]);
  ("Conn.ModifyBearer", "Conn.ListenAndServe", CPkt, 4%nat, 5%nat, [C "Conn.ModifyBearer" [2; 3]; R 4 25; M 4 1 0; R 4 1; C "Conn.ListenAndServe" [2]; R 5 4]);
  ("Conn.DeleteBearer", "Conn.ListenAndServe", CPkt, 4%nat, 5%nat, [C "Conn.DeleteBearer" [2; 3]; R 4 25; M 4 1 0; R 4 1; C "Conn.ListenAndServe" [2]; R 5 4]);
  ("Conn.EnableValidation", "Conn datagram", CValid, 5%nat, 8%nat, [C "Conn.Listen" [2]; R 4 7; C "Conn.EnableValidation" [2]; R 5 3; C "Conn.Serve" [2]; R 6 3; M 6 1 0; R 6 4; R 8 3; M 8 1 0; R 8 1]);
  ("Conn.DisableValidation", "Conn datagram", CValid, 5%nat, 8%nat, [C "Conn.Listen" [2]; R 4 7; C "Conn.DisableValidation" [2]; R 5 3; C "Conn.Serve" [2]; R 6 3; M 6 1 0; R 6 4; R 8 3; M 8 1 0; R 8 1]);
  ("Session.UpdatePeerAddr", "Session.UpdatePeerAddr", SPeer, 4%nat, 5%nat, [C "Session.UpdatePeerAddr" [3]; R 4 1; C "Session.UpdatePeerAddr" [3]; R 5 1]);
  ("Session.UpdatePeerAddr", "Session.PeerAddr", SPeer, 4%nat, 5%nat, [C "Session.UpdatePeerAddr" [3]; R 4 1; C "Session.PeerAddr" [3]]);
  ("Session.UpdatePeerAddr", "Conn.DeleteSession", SPeer, 4%nat, 5%nat, [C "Session.UpdatePeerAddr" [3]; R 4 1; C "Conn.DeleteSession" [2; 3]; R 5 3]);
  ("Session.UpdatePeerAddr", "Conn.ModifyBearer", SPeer, 4%nat, 5%nat, [C "Session.UpdatePeerAddr" [3]; R 4 1; C "Conn.ModifyBearer" [2; 3]; R 5 3]);
  ("Session.UpdatePeerAddr", "Conn.DeleteBearer", SPeer, 4%nat, 5%nat, [C "Session.UpdatePeerAddr" [3]; R 4 1; C "Conn.DeleteBearer" [2; 3]; R 5 3]);
  ("Session.UpdatePeerAddr", "Session.UpdatePeerAddr", SPeerStr, 4%nat, 5%nat, [C "Session.UpdatePeerAddr" [3]; R 4 3; C "Session.UpdatePeerAddr" [3]; R 5 3]);
  ("Session.UpdatePeerAddr", "Conn.GetSessionByTEID", SPeerStr, 4%nat, 5%nat, [C "Session.UpdatePeerAddr" [3]; R 4 3; C "Conn.GetSessionByTEID" [2]; R 5 2; M 5 0 3; R 5 3]);
  ("Session.UpdatePeerAddr", "Conn.GetIMSIByTEID", SPeerStr, 4%nat, 5%nat, [C "Session.UpdatePeerAddr" [3]; R 4 3; C "Conn.GetIMSIByTEID" [2]; R 5 2; M 5 0 3; R 5 3]);
  ("Session.UpdatePeerAddr", "Conn datagram", SPeerStr, 5%nat, 8%nat, [C "Conn.Listen" [2]; R 4 7; C "Session.UpdatePeerAddr" [3]; R 5 3; C "Conn.Serve" [2]; R 6 3; M 6 1 0; R 6 4; R 8 3; M 8 1 0; R 8 2; M 8 1 0; R 8 3; M 8 0 3; R 8 3]);
  ("Session.IMSI = ...", "Session.IMSI = ...", SImsi, 4%nat, 5%nat, [C "Session.IMSI = ..." [3]; C "Session.IMSI = ..." [3]]);
  ("Session.IMSI = ...", "Session.IMSI", SImsi, 4%nat, 5%nat, [C "Session.IMSI = ..." [3]; C "Session.IMSI" [3]]);
  ("Session.IMSI = ...", "Session.Activate", SImsi, 4%nat, 5%nat, [C "Session.IMSI = ..." [3]; C "Session.Activate" [3]; R 5 3]);
  ("Session.IMSI = ...", "Session.RemoveBearerByEBI", SImsi, 4%nat, 5%nat, [C "Session.IMSI = ..." [3]; C "Session.RemoveBearerByEBI" [3]; R 5 4]);
  ("Session.IMSI = ...", "Session.LookupBearerByName", SImsi, 4%nat, 5%nat, [C "Session.IMSI = ..." [3]; C "Session.LookupBearerByName" [3]; R 5 1]);
  ("Session.IMSI = ...", "Session.LookupBearerByEBI", SImsi, 4%nat, 5%nat, [C "Session.IMSI = ..." [3]; C "Session.LookupBearerByEBI" [3]; R 5 4]);
  ("Session.IMSI = ...", "Session.LookupBearerNameByEBI", SImsi, 4%nat, 5%nat, [C "Session.IMSI = ..." [3]; C "Session.LookupBearerNameByEBI" [3]; R 5 4]);
  ("Session.IMSI = ...", "Conn.GetIMSIByTEID", SImsi, 4%nat, 5%nat, [C "Session.IMSI = ..." [3]; C "Conn.GetIMSIByTEID" [2]; R 5 2; M 5 0 3; R 5 6]);
  ("Session.IMSI = ...", "Conn.RegisterSession", SImsi, 4%nat, 5%nat, [C "Session.IMSI = ..." [3]; C "Conn.RegisterSession" [2; 3]]);
  ("Session.IMSI = ...", "Conn.RemoveSession", SImsi, 4%nat, 5%nat, [C "Session.IMSI = ..." [3]; C "Conn.RemoveSession" [2; 3]; R 5 1]);
  ("Session.IMSI = ...", "Conn.RemoveSessionByIMSI", SImsi, 4%nat, 5%nat, [C "Session.IMSI = ..." [3]; C "Conn.RemoveSessionByIMSI" [2]; M 5 1 0; R 5 1; M 5 0 3; R 5 3]);
  ("Conn.ParseCreateSession", "Session.IMSI = ...", SImsi, 4%nat, 5%nat, [C "Conn.ParseCreateSession" [2]; R 4 23; M 4 1 0; R 4 3; M 4 1 0; R 4 7; M 4 1 0; R 4 4; C "Session.IMSI = ..." [6]]);
  ("Conn.ParseCreateSession", "Session.IMSI", SImsi, 4%nat, 5%nat, [C "Conn.ParseCreateSession" [2]; R 4 23; M 4 1 0; R 4 3; M 4 1 0; R 4 7; M 4 1 0; R 4 4; C "Session.IMSI" [6]]);
  ("Conn.ParseCreateSession", "Session.Activate", SImsi, 4%nat, 5%nat, [C "Conn.ParseCreateSession" [2]; R 4 23; M 4 1 0; R 4 3; M 4 1 0; R 4 7; M 4 1 0; R 4 4; C "Session.Activate" [6]; R 5 3]);
  ("Conn.ParseCreateSession", "Session.RemoveBearerByEBI", SImsi, 4%nat, 5%nat, [C "Conn.ParseCreateSession" [2]; R 4 23; M 4 1 0; R 4 3; M 4 1 0; R 4 7; M 4 1 0; R 4 4; C "Session.RemoveBearerByEBI" [6]; R 5 4]);
  ("Conn.ParseCreateSession", "Session.LookupBearerByName", SImsi, 4%nat, 5%nat, [C "Conn.ParseCreateSession" [2]; R 4 23; M 4 1 0; R 4 3; M 4 1 0; R 4 7; M 4 1 0; R 4 4; C "Session.LookupBearerByName" [6]; R 5 1]);
  ("Conn.ParseCreateSession", "Session.LookupBearerByEBI", SImsi, 4%nat, 5%nat, [C "Conn.ParseCreateSession" [2]; R 4 23; M 4 1 0; R 4 3; M 4 1 0; R 4 7; M 4 1 0; R 4 4; C "Session.LookupBearerByEBI" [6]; R 5 4]);
  ("Conn.ParseCreateSession", "Session.LookupBearerNameByEBI", SImsi, 4%nat, 5%nat, [C "Conn.ParseCreateSession" [2]; R 4 23; M 4 1 0; R 4 3; M 4 1 0; R 4 7; M 4 1 0; R 4 4; C "Session.LookupBearerNameByEBI" [6]; R 5 4]);
  ("Conn.ParseCreateSession", "Conn.GetIMSIByTEID", SImsi, 4%nat, 5%nat, [C "Conn.ParseCreateSession" [2]; R 4 23; M 4 1 0; R 4 3; M 4 1 0; R 4 7; M 4 1 0; R 4 4; C "Conn.GetIMSIByTEID" [2]; R 5 2; M 5 0 6; R 5 6]);
  ("Conn.ParseCreateSession", "Conn.RegisterSession", SImsi, 4%nat, 5%nat, [C "Conn.ParseCreateSession" [2]; R 4 23; M 4 1 0; R 4 3; M 4 1 0; R 4 7; M 4 1 0; R 4 4; C "Conn.RegisterSession" [2; 6]]);
  ("Conn.ParseCreateSession", "Conn.RemoveSession", SImsi, 4%nat, 5%nat, [C "Conn.ParseCreateSession" [2]; R 4 23; M 4 1 0; R 4 3; M 4 1 0; R 4 7; M 4 1 0; R 4 4; C "Conn.RemoveSession" [2; 6]; R 5 1]);
  ("Conn.ParseCreateSession", "Conn.RemoveSessionByIMSI", SImsi, 4%nat, 5%nat, [C "Conn.ParseCreateSession" [2]; R 4 23; M 4 1 0; R 4 3; M 4 1 0; R 4 7; M 4 1 0; R 4 4; C "Conn.RemoveSessionByIMSI" [2]; M 5 1 0; R 5 1; M 5 0 6; R 5 3]);
  ("Conn.CreateSession", "Session.IMSI = ...", SImsi, 4%nat, 5%nat, [C "Conn.CreateSession" [2]; R 4 23; M 4 1 0; R 4 3; M 4 1 0; R 4 7; M 4 1 0; R 4 4; C "Session.IMSI = ..." [6]]);
  ("Conn.CreateSession", "Session.IMSI", SImsi, 4%nat, 5%nat, [C "Conn.CreateSession" [2]; R 4 23; M 4 1 0; R 4 3; M 4 1 0; R 4 7; M 4 1 0; R 4 4; C "Session.IMSI" [6]]);
  ("Conn.CreateSession", "Session.Activate", SImsi, 4%nat, 5%nat, [C "Conn.CreateSession" [2]; R 4 23; M 4 1 0; R 4 3; M 4 1 0; R 4 7; M 4 1 0; R 4 4; C "Session.Activate" [6]; R 5 3]);
  ("Conn.CreateSession", "Session.RemoveBearerByEBI", SImsi, 4%nat, 5%nat, [C "Conn.CreateSession" [2]; R 4 23; M 4 1 0; R 4 3; M 4 1 0; R 4 7; M 4 1 0; R 4 4; C "Session.RemoveBearerByEBI" [6]; R 5 4]);
  ("Conn.CreateSession", "Session.LookupBearerByName", SImsi, 4%nat, 5%nat, [C "Conn.CreateSession" [2]; R 4 23; M 4 1 0; R 4 3; M 4 1 0; R 4 7; M 4 1 0; R 4 4; C "Session.LookupBearerByName" [6]; R 5 1]);
  ("Conn.CreateSession", "Session.LookupBearerByEBI", SImsi, 4%nat, 5%nat, [C "Conn.CreateSession" [2]; R 4 23; M 4 1 0; R 4 3; M 4 1 0; R 4 7; M 4 1 0; R 4 4; C "Session.LookupBearerByEBI" [6]; R 5 4]);
  ("Conn.CreateSession", "Session.LookupBearerNameByEBI", SImsi, 4%nat, 5%nat, [C "Conn.CreateSession" [2]; R 4 23; M 4 1 0; R 4 3; M 4 1 0; R 4 7; M 4 1 0; R 4 4; C "Session.LookupBearerNameByEBI" [6]; R 5 4]);
  ("Conn.CreateSession", "Conn.GetIMSIByTEID", SImsi, 4%nat, 5%nat, [C "Conn.CreateSession" [2]; R 4 23; M 4 1 0; R 4 3; M 4 1 0; R 4 7; M 4 1 0; R 4 4; C "Conn.GetIMSIByTEID" [2]; R 5 2; M 5 0 6; R 5 6]);
  ("Conn.CreateSession", "Conn.RegisterSession", SImsi, 4%nat, 5%nat, [C "Conn.CreateSession" [2]; R 4 23; M 4 1 0; R 4 3; M 4 1 0; R 4 7; M 4 1 0; R 4 4; C "Conn.RegisterSession" [2; 6]]);
  ("Conn.CreateSession", "Conn.RemoveSession", SImsi, 4%nat, 5%nat, [C "Conn.CreateSession" [2]; R 4 23; M 4 1 0; R 4 3; M 4 1 0; R 4 7; M 4 1 0; R 4 4; C "Conn.RemoveSession" [2; 6]; R 5 1]);
  ("Conn.CreateSession", "Conn.RemoveSessionByIMSI", SImsi, 4%nat, 5%nat, [C "Conn.CreateSession" [2]; R 4 23; M 4 1 0; R 4 3; M 4 1 0; R 4 7; M 4 1 0; R 4 4; C "Conn.RemoveSessionByIMSI" [2]; M 5 1 0; R 5 1; M 5 0 6; R 5 3]);
  ("Bearer.SetRemoteAddress", "Bearer.SetRemoteAddress", BAddr, 4%nat, 5%nat, [C "Bearer.SetRemoteAddress" [4]; C "Bearer.SetRemoteAddress" [4]]);
  ("Bearer.SetRemoteAddress", "Bearer.RemoteAddress", BAddr, 4%nat, 5%nat, [C "Bearer.SetRemoteAddress" [4]; C "Bearer.RemoteAddress" [4]]);
  ("Bearer.SetIncomingTEID", "Bearer.SetIncomingTEID", BIn, 4%nat, 5%nat, [C "Bearer.SetIncomingTEID" [4]; C "Bearer.SetIncomingTEID" [4]]);
  ("Bearer.SetIncomingTEID", "Bearer.IncomingTEID", BIn, 4%nat, 5%nat, [C "Bearer.SetIncomingTEID" [4]; C "Bearer.IncomingTEID" [4]]);
  ("Bearer.SetIncomingTEID", "Session.LookupEBIByTEID", BIn, 4%nat, 5%nat, [C "Bearer.SetIncomingTEID" [4]; C "Session.LookupEBIByTEID" [3]; M 5 1 0; R 5 1; M 5 0 4; R 5 3]);
  ("Bearer.SetOutgoingTEID", "Bearer.SetOutgoingTEID", BOut, 4%nat, 5%nat, [C "Bearer.SetOutgoingTEID" [4]; C "Bearer.SetOutgoingTEID" [4]]);
  ("Bearer.SetOutgoingTEID", "Bearer.OutgoingTEID", BOut, 4%nat, 5%nat, [C "Bearer.SetOutgoingTEID" [4]; C "Bearer.OutgoingTEID" [4]]);
  ("Bearer.SetOutgoingTEID", "Session.LookupEBIByTEID", BOut, 4%nat, 5%nat, [C "Bearer.SetOutgoingTEID" [4]; C "Session.LookupEBIByTEID" [3]; M 5 1 0; R 5 1; M 5 0 4; R 5 6]);
  ("Bearer.EBI = ...", "Bearer.EBI = ...", BEbi, 4%nat, 5%nat, [C "Bearer.EBI = ..." [4]; C "Bearer.EBI = ..." [4]]);
  ("Bearer.EBI = ...", "Bearer.EBI", BEbi, 4%nat, 5%nat, [C "Bearer.EBI = ..." [4]; C "Bearer.EBI" [4]]);
  ("Bearer.EBI = ...", "Session.RemoveBearerByEBI", BEbi, 4%nat, 5%nat, [C "Bearer.EBI = ..." [4]; C "Session.RemoveBearerByEBI" [3]; R 5 1; M 5 1 0; R 5 1; M 5 0 4; R 5 2]);
  ("Bearer.EBI = ...", "Session.LookupBearerByEBI", BEbi, 4%nat, 5%nat, [C "Bearer.EBI = ..." [4]; C "Session.LookupBearerByEBI" [3]; R 5 1; M 5 1 0; R 5 1; M 5 0 4; R 5 2]);
  ("Bearer.EBI = ...", "Session.LookupBearerNameByEBI", BEbi, 4%nat, 5%nat, [C "Bearer.EBI = ..." [4]; C "Session.LookupBearerNameByEBI" [3]; R 5 1; M 5 1 0; R 5 1; M 5 0 4; R 5 2]);
  ("Bearer.EBI = ...", "Session.LookupEBIByName", BEbi, 4%nat, 5%nat, [C "Bearer.EBI = ..." [4]; C "Session.LookupEBIByName" [3]; R 5 2; M 5 0 4; R 5 2]);
  ("Bearer.EBI = ...", "Session.LookupEBIByTEID", BEbi, 4%nat, 5%nat, [C "Bearer.EBI = ..." [4]; C "Session.LookupEBIByTEID" [3]; M 5 1 0; R 5 1; M 5 0 4; R 5 9]);
  ("Conn.ParseCreateSession", "Bearer.EBI = ...", BEbi, 4%nat, 5%nat, [C "Conn.ParseCreateSession" [2]; R 4 23; M 4 1 0; R 4 3; M 4 1 0; R 4 7; M 4 1 0; R 4 3; M 4 1 0; M 4 1 0; R 4 1; C "Bearer.EBI = ..." [7]]);
  ("Conn.ParseCreateSession", "Bearer.EBI", BEbi, 4%nat, 5%nat, [C "Conn.ParseCreateSession" [2]; R 4 23; M 4 1 0; R 4 3; M 4 1 0; R 4 7; M 4 1 0; R 4 3; M 4 1 0; M 4 1 0; R 4 1; C "Bearer.EBI" [7]]);
  ("Conn.ParseCreateSession", "Session.RemoveBearerByEBI", BEbi, 4%nat, 5%nat, [C "Conn.ParseCreateSession" [2]; R 4 23; M 4 1 0; R 4 3; M 4 1 0; R 4 7; M 4 1 0; R 4 3; M 4 1 0; M 4 1 0; R 4 1; C "Session.RemoveBearerByEBI" [6]; R 5 1; M 5 1 0; R 5 1; M 5 0 7; R 5 2]);
  ("Conn.ParseCreateSession", "Session.LookupBearerByEBI", BEbi, 4%nat, 5%nat, [C "Conn.ParseCreateSession" [2]; R 4 23; M 4 1 0; R 4 3; M 4 1 0; R 4 7; M 4 1 0; R 4 3; M 4 1 0; M 4 1 0; R 4 1; C "Session.LookupBearerByEBI" [6]; R 5 1; M 5 1 0; R 5 1; M 5 0 7; R 5 2]);
  ("Conn.ParseCreateSession", "Session.LookupBearerNameByEBI", BEbi, 4%nat, 5%nat, [C "Conn.ParseCreateSession" [2]; R 4 23; M 4 1 0; R 4 3; M 4 1 0; R 4 7; M 4 1 0; R 4 3; M 4 1 0; M 4 1 0; R 4 1; C "Session.LookupBearerNameByEBI" [6]; R 5 1; M 5 1 0; R 5 1; M 5 0 7; R 5 2]);
  ("Conn.ParseCreateSession", "Session.LookupEBIByName", BEbi, 4%nat, 5%nat, [C "Conn.ParseCreateSession" [2]; R 4 23; M 4 1 0; R 4 3; M 4 1 0; R 4 7; M 4 1 0; R 4 3; M 4 1 0; M 4 1 0; R 4 1; C "Session.LookupEBIByName" [6]; R 5 2; M 5 0 7; R 5 2]);
  ("Conn.ParseCreateSession", "Session.LookupEBIByTEID", BEbi, 4%nat, 5%nat, [C "Conn.ParseCreateSession" [2]; R 4 23; M 4 1 0; R 4 3; M 4 1 0; R 4 7; M 4 1 0; R 4 3; M 4 1 0; M 4 1 0; R 4 1; C "Session.LookupEBIByTEID" [6]; M 5 1 0; R 5 1; M 5 0 7; R 5 9]);
  ("Conn.CreateSession", "Bearer.EBI = ...", BEbi, 4%nat, 5%nat, [C "Conn.CreateSession" [2]; R 4 23; M 4 1 0; R 4 3; M 4 1 0; R 4 7; M 4 1 0; R 4 3; M 4 1 0; M 4 1 0; R 4 1; C "Bearer.EBI = ..." [7]]);
  ("Conn.CreateSession", "Bearer.EBI", BEbi, 4%nat, 5%nat, [C "Conn.CreateSession" [2]; R 4 23; M 4 1 0; R 4 3; M 4 1 0; R 4 7; M 4 1 0; R 4 3; M 4 1 0; M 4 1 0; R 4 1; C "Bearer.EBI" [7]]);
  ("Conn.CreateSession", "Session.RemoveBearerByEBI", BEbi, 4%nat, 5%nat, [C "Conn.CreateSession" [2]; R 4 23; M 4 1 0; R 4 3; M 4 1 0; R 4 7; M 4 1 0; R 4 3; M 4 1 0; M 4 1 0; R 4 1; C "Session.RemoveBearerByEBI" [6]; R 5 1; M 5 1 0; R 5 1; M 5 0 7; R 5 2]);
  ("Conn.CreateSession", "Session.LookupBearerByEBI", BEbi, 4%nat, 5%nat, [C "Conn.CreateSession" [2]; R 4 23; M 4 1 0; R 4 3; M 4 1 0; R 4 7; M 4 1 0; R 4 3; M 4 1 0; M 4 1 0; R 4 1; C "Session.LookupBearerByEBI" [6]; R 5 1; M 5 1 0; R 5 1; M 5 0 7; R 5 2]);
  ("Conn.CreateSession", "Session.LookupBearerNameByEBI", BEbi, 4%nat, 5%nat, [C "Conn.CreateSession" [2]; R 4 23; M 4 1 0; R 4 3; M 4 1 0; R 4 7; M 4 1 0; R 4 3; M 4 1 0; M 4 1 0; R 4 1; C "Session.LookupBearerNameByEBI" [6]; R 5 1; M 5 1 0; R 5 1; M 5 0 7; R 5 2]);
  ("Conn.CreateSession", "Session.LookupEBIByName", BEbi, 4%nat, 5%nat, [C "Conn.CreateSession" [2]; R 4 23; M 4 1 0; R 4 3; M 4 1 0; R 4 7; M 4 1 0; R 4 3; M 4 1 0; M 4 1 0; R 4 1; C "Session.LookupEBIByName" [6]; R 5 2; M 5 0 7; R 5 2]);
  ("Conn.CreateSession", "Session.LookupEBIByTEID", BEbi, 4%nat, 5%nat, [C "Conn.CreateSession" [2]; R 4 23; M 4 1 0; R 4 3; M 4 1 0; R 4 7; M 4 1 0; R 4 3; M 4 1 0; M 4 1 0; R 4 1; C "Session.LookupEBIByTEID" [6]; M 5 1 0; R 5 1; M 5 0 7; R 5 9]);
  ("ie.SetIsGroupedFun", "IE.IsGrouped", GFun, 4%nat, 5%nat, [C "ie.SetIsGroupedFun" []; R 4 3; C "IE.IsGrouped" []; R 5 1]);
  ("ie.SetIsGroupedFun", "gtpv2 message.Parse, Marshal", GFun, 4%nat, 5%nat, [C "ie.SetIsGroupedFun" []; R 4 3; C "gtpv2 message.Parse, Marshal" []; M 5 1 0; R 5 1]);
  ("ie.SetIsGroupedFun", "Dial", GFun, 4%nat, 5%nat, [C "ie.SetIsGroupedFun" []; R 4 3; C "Dial" []; R 5 11; M 5 1 0; R 5 45; M 5 1 0; R 5 1]);
  ("ie.SetIsGroupedFun", "Conn.ParseCreateSession", GFun, 4%nat, 5%nat, [C "ie.SetIsGroupedFun" []; R 4 3; C "Conn.ParseCreateSession" [2]; R 5 23; M 5 1 0; R 5 1; M 5 1 0; R 5 1]);
  ("ie.SetIsGroupedFun", "Conn datagram", GFun, 5%nat, 8%nat, [C "Conn.Listen" [2]; R 4 7; C "ie.SetIsGroupedFun" []; R 5 3; C "Conn.Serve" [2]; R 6 3; M 6 1 0; R 6 4; R 8 1; M 8 1 0; R 8 1]);
  ("ie.SetIsGroupedFun", "Conn.SendMessageTo", GFun, 4%nat, 5%nat, [C "ie.SetIsGroupedFun" []; R 4 3; C "Conn.SendMessageTo" [2]; R 5 18; M 5 1 0; R 5 1]);
  ("ie.SetIsGroupedFun", "Conn.EchoRequest", GFun, 4%nat, 5%nat, [C "ie.SetIsGroupedFun" []; R 4 3; C "Conn.EchoRequest" [2]; R 5 18; M 5 1 0; R 5 1]);
  ("ie.SetIsGroupedFun", "Conn.EchoResponse", GFun, 4%nat, 5%nat, [C "ie.SetIsGroupedFun" []; R 4 3; C "Conn.EchoResponse" [2]; R 5 1; M 5 1 0; R 5 1]);
  ("ie.SetIsGroupedFun", "Conn.RespondTo", GFun, 4%nat, 5%nat, [C "ie.SetIsGroupedFun" []; R 4 3; C "Conn.RespondTo" [2]; R 5 1; M 5 1 0; R 5 1]);
  ("ie.SetIsGroupedFun", "Conn.CreateSession", GFun, 4%nat, 5%nat, [C "ie.SetIsGroupedFun" []; R 4 3; C "Conn.CreateSession" [2]; R 5 48; M 5 1 0; R 5 1]);
  ("ie.SetIsGroupedFun", "Conn.DeleteSession", GFun, 4%nat, 5%nat, [C "ie.SetIsGroupedFun" []; R 4 3; C "Conn.DeleteSession" [2; 3]; R 5 23; M 5 1 0; R 5 1]);
  ("ie.SetIsGroupedFun", "Conn.ModifyBearer", GFun, 4%nat, 5%nat, [C "ie.SetIsGroupedFun" []; R 4 3; C "Conn.ModifyBearer" [2; 3]; R 5 23; M 5 1 0; R 5 1]);
  ("ie.SetIsGroupedFun", "Conn.DeleteBearer", GFun, 4%nat, 5%nat, [C "ie.SetIsGroupedFun" []; R 4 3; C "Conn.DeleteBearer" [2; 3]; R 5 23; M 5 1 0; R 5 1]) ].

Definition holds (base : option st) (w : witness) : bool :=
  match w with (a, b, f, i, j, l) =>
    match base with Some s => match run s l with Some s' => racyb s' a b f i j | None => false end | None => false end end.
Lemma all_hold : forallb (holds (run start base_acts)) witnesses = true.
Proof. vm_compute. reflexivity. Qed.
Definition shown (ws : list witness) (a b : string) (f : field) : bool :=
  existsb (fun w => match w with (a', b', f', _, _, _) =>
    field_beq f' f && (String.eqb a' a && String.eqb b' b || String.eqb a' b && String.eqb b' a) end) ws.
Definition covers (ws : list witness) (e : field * list string * list string) : bool :=
  match e with (f, l, m) => forallb (fun a => forallb (fun b => shown ws a b f) m) l end.
Lemma all_shown : forallb (covers witnesses) races = true.
Proof. vm_compute. reflexivity. Qed.

Definition ok (s : option st) : Prop := match s with Some s => reachable s | None => True end.
Lemma run_ok : forall s l, reachable s -> ok (run s l).
Proof. intros s l R. destruct (run s l) as [s'|] eqn:E; [|exact I]. eapply run_reachable; eassumption. Qed.
Lemma shown_race : forall base ws a b f, ok base -> forallb (holds base) ws = true -> shown ws a b f = true -> can_race a b f.
Proof.
  intros base ws a b f B A H. apply existsb_exists in H. destruct H as [[[[[[a' b'] f'] i] j] l] [W H]].
  apply andb_true_iff in H. destruct H as [F H]. apply field_beq_true in F. subst f'.
  rewrite forallb_forall in A. specialize (A _ W). unfold holds in A.
  destruct base as [s|]; [|discriminate]. destruct (run s l) as [s'|] eqn:E; [|discriminate].
  apply racyb_racy in A. exists s'. split; [eapply run_reachable; [exact B|exact E]|]. apply orb_true_iff in H.
  destruct H as [H|H]; apply andb_true_iff in H; destruct H as [H1 H2]; apply String.eqb_eq in H1, H2; subst; [exact A|apply racy_sym; exact A].
Qed.
Lemma covers_race : forall base ws rs, ok base -> forallb (holds base) ws = true -> forallb (covers ws) rs = true ->
  forall a b f l m, In (f, l, m) rs -> In a l -> In b m -> can_race a b f.
Proof.
  intros base ws rs B A C a b f l m I X Y. rewrite forallb_forall in C. specialize (C _ I). cbn in C. rewrite forallb_forall in C.
  specialize (C _ X). rewrite forallb_forall in C. exact (shown_race _ _ _ _ _ B A (C _ Y)).
Qed.
Theorem all_listed_race : forall a b f, listed a b f -> can_race a b f.
Proof.
  intros a b f [l [m [I H]]]. pose proof (covers_race _ _ _ (run_ok _ base_acts reach_start) all_hold all_shown) as C.
  destruct H as [[X Y]|[X Y]]; [exact (C _ _ _ _ _ I X Y)|].
  destruct (C _ _ _ _ _ I X Y) as [s [R Z]]. exists s. split; [exact R|apply racy_sym; exact Z].
Qed.
