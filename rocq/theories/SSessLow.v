(** Specification of requests over a real session when there is not enough memory. *)
From Verif Require Import Base MBuffer MEip MSocket SSocket.

(** What a request makes of the packet that it takes for its reply. *)
Definition taken (h : heap) (handle : Z) (r : encaps) : outcome response := (x <- verdict handle r ;; reply_response h x)%outcome.
