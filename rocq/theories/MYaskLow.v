(** Model: requests with Yaskawa paths when there is not enough memory. *)
From Verif Require Import Base MBuffer MEip MYaskawa MSocket MMem.

(** src/vendor/yaskawa/mp3300iec/Yaskawa_MessageRouter.cpp:32-76. Places as in src/MessageRouter.cpp (MMem.m_request): the text of
    the path (line 39); the request and its packets (lines 41-53); the exchange (line 55); the reply (lines 57-75). *)
Definition ym_request (info warning : bool) (h : heap) (p : peer) (handle service : Z) (path : ypath) (data : bytes) (extra : list cpitem) : mst response :=
  m_bind (message true info) (fun _ =>
  m_bind need (fun _ =>
  m_bind (m_exchange warning h p handle (yrequest_packet handle service path data extra)) (fun received =>
  m_bind need (fun _ => m_lift (st_lift (reply_response h received)))))).
