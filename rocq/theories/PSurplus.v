(** C43: nothing beyond Content-Length is looked at. *)
From Coq Require Import List NArith ZArith Bool String Lia.
From Verif Require Import MBase MPyStr MHeaders MWire MEnvelope SEnvelope LEnvelope MTimeout MProtocol MClient MServer MAsgi MWsgi
  SPieces LPieces PProtocol PResponse.
Import ListNotations.
Local Open Scope N_scope.

(** A unary request with a Content-Length: what the server could read after that many bytes - other bytes, an error, the end -
    makes no difference to anything that the application does, apart from what draining the rest over HTTP/1 raises, [wq_drain]. *)
Theorem C43_surplus {A B} (ap : app A B) now q l mi f hs cx s n body more more' x x' :
  wsgi_open_request ap now q = Ok (EpUnary mi f, hs, PConnect, cx) ->
  env_get q "CONTENT_LENGTH" = Some s -> int_of_str s = Some n -> (0 < n)%Z -> lenN body = Z.to_N n ->
  winput (wq_input q) (body ++ more) x -> winput l (body ++ more') x' ->
  wsgi_call ap now q = wsgi_call ap now (mk_wq (wq_env q) l (wq_trailers q) (wq_drain q)).
Proof.
  intros O Cl Ci Pn Ln D D'. change (mk_wq (wq_env q) l (wq_trailers q) (wq_drain q)) with (input_with q l).
  unfold wsgi_call. change (wsgi_open_request ap now (input_with q l)) with (wsgi_open_request ap now q). rewrite O.
  assert (E : forall m y, exactly (Z.to_N n) (body ++ m) y = Ok body).
  { intros m y. unfold exactly. rewrite lenN_app, <- Ln. replace (lenN body <=? lenN body + lenN m) with true by (symmetry; lia). now rewrite takeN_app. }
  assert (P : wsgi_post_request ap q hs = wsgi_post_request ap (input_with q l) hs).
  { unfold wsgi_post_request. destruct (dget (ap_codecs ap) _) as [k|]; [|reflexivity]. f_equal.
    change (env_get (input_with q l)) with (env_get q). change (env_default (input_with q l)) with (env_default q). rewrite Cl.
    destruct s as [|c s]; [discriminate Ci|]. rewrite Ci. cbn [bind]. replace (0 <? n)%Z with true by (symmetry; lia).
    cbn [input_with wq_input]. rewrite (length_in _ _ _ _ D), (length_in _ _ _ _ D'), !E by lia. reflexivity. }
  assert (U : wsgi_unary ap q (cx_http cx) f cx hs = wsgi_unary ap (input_with q l) (cx_http cx) f cx hs)
    by (unfold wsgi_unary; rewrite P; reflexivity).
  rewrite U. reflexivity.
Qed.
Print Assumptions C43_surplus.

Definition ex_sized (l : list rd) : wsgi_request :=
  mk_wq [(lit "PATH_INFO", lit "/pkg.Svc/Get"); (lit "SCRIPT_NAME", []); (lit "REQUEST_METHOD", lit "POST"); (lit "CONTENT_LENGTH", lit "3");
         (lit "CONTENT_TYPE", lit "application/proto"); (lit "SERVER_PROTOCOL", lit "HTTP/1.1")] l true (fun _ => None).
Example C43_surplus_example :
  (exists f hs cx, wsgi_open_request (ex_app ex_echo) 0%Z (ex_sized [RD [1; 2]; RD [3; 80; 79]; RDErr (EOther KOSError [])]) = Ok (EpUnary ex_method f, hs, PConnect, cx))
  /\ env_get (ex_sized []) "CONTENT_LENGTH" = Some (lit "3") /\ int_of_str (lit "3") = Some 3%Z
  /\ winput [RD [1; 2]; RD [3; 80; 79]; RDErr (EOther KOSError [])] ([1; 2; 3] ++ [80; 79]) (Some (EOther KOSError []))
  /\ winput [RD [1; 2; 3]] ([1; 2; 3] ++ []) None
  /\ wr_inv (wsgi_call (ex_app ex_echo) 0%Z (ex_sized [RD [1; 2]; RD [3; 80; 79]; RDErr (EOther KOSError [])])) = [InvMsg [1; 2; 3]].
Proof.
  split; [eexists; eexists; eexists; reflexivity|]. split; [reflexivity|]. split; [reflexivity|].
  split; [apply (wi_more [1; 2] _ [3; 80; 79]); [discriminate|]; apply (wi_more [3; 80; 79] _ []); [discriminate|]; apply wi_error|].
  split; [apply (wi_more [1; 2; 3] _ []); [discriminate|]; apply wi_end|]. vm_compute. reflexivity.
Qed.
