(* C70 *)
From Verif Require Import Base P_Base Iana Crypto Config Conn Wrapper Examples S_Hist S_Http P_Http Toy P_Toy P_HelloToy.
Local Open Scope string_scope.
Local Open Scope N_scope.
Local Open Scope list_scope.

Theorem c70_utf8 : forall b s, utf8_decode b = Some s <-> utf8 s b.
Proof. exact decode_iff. Qed.
Print Assumptions c70_utf8.
Theorem c70_encode : forall s, Forall scalar s -> exists b, utf8_encode s = Some b /\ utf8 s b.
Proof. exact encode_ok. Qed.
Print Assumptions c70_encode.
(* U+0041, U+00E9, U+20AC, U+10348; an overlong form, a surrogate, a number too large *)
Example c70_utf8_case : utf8_decode [x41; xc3; xa9; xe2; x82; xac; xf0; x90; x8d; x88] = Some [0x41; 0xE9; 0x20AC; 0x10348] /\
  map utf8_decode [[xc0; x80]; [xed; xa0; x80]; [xf4; x90; x80; x80]] = [None; None; None].
Proof. split; vm_compute; reflexivity. Qed.

(* The code is the one the specification gives, and it gives one to every request. *)
Theorem c70_code : forall q n, snd (verdict q) = n <-> judged q n.
Proof. intros q n. symmetry. apply judged_iff. Qed.
Print Assumptions c70_code.
Definition c70_ask (s : String.string) : bytes := ascii_bytes s ++ [x0d; x0a; x41].
Example c70_code_case : map (fun s => snd (verdict (c70_ask s))) ["GET / HTTP/1.1"; "GET  /  x"; "GET /a HTTP/1.1"; "get / HTTP/1.1"; "GET /"; "GET / a b"; ""]
  = [200; 200; 404; 405; 400; 400; 400].
Proof. vm_compute. reflexivity. Qed.

(* What is written is a message whose length is announced, as long as the body
   is made of ASCII characters: it is their number that is announced. *)
Theorem c70_response_partial : forall version date code body, visible version -> visible date -> ascii body ->
  exists m, utf8_encode (http_response version date code body) = Some m /\ carries m (map Nb body).
Proof. exact response_carries. Qed.
Print Assumptions c70_response_partial.
Theorem c70_request_partial : forall version host meth path body, visible version -> visible host -> visible meth -> visible path -> ascii body ->
  exists m, utf8_encode (http_request version host meth path body) = Some m /\ carries m (map Nb body).
Proof. exact request_carries. Qed.
Print Assumptions c70_request_partial.
Example c70_response_case : ascii (txt "Hello") /\ visible (txt "0.0.1") /\
  http_response (txt "0.0.1") (txt "today") 404 [] = txt "HTTP/1.1 404 Not Found" ++ CRLF ++ txt "Date: today" ++ CRLF ++ txt "Server: siotls/0.0.1" ++ CRLF ++
    txt "Connection: close" ++ CRLF ++ txt "Content-Type: text/plain; charset=utf-8" ++ CRLF ++ txt "Content-Length: 0" ++ CRLF ++ CRLF.
Proof. split; [apply visible_ascii, visible_b; reflexivity|]. split; [apply visible_b; reflexivity|]. vm_compute. reflexivity. Qed.
Theorem c70_length_refuted : exists version date body b m, Forall scalar body /\ visible version /\ visible date /\ utf8 body b /\
  utf8_encode (http_response version date 200 body) = Some m /\ ~ carries m b.
Proof.
  exists [], [], [0xE9], [xc3; xa9]. eexists. split. { constructor; [unfold scalar; lia | constructor]. }
  split; [constructor|]. split; [constructor|]. split. { apply decode_iff. reflexivity. }
  split; [vm_compute; reflexivity|].
  match goal with |- ~ carries ?m _ => change m with (firstn (length m - 7) m ++ [x31; x0d; x0a; x0d; x0a; xc3; xa9]) end. apply not_carried.
Qed.
Print Assumptions c70_length_refuted.

(* Full statement: whatever the request, the server answers it, closes, and goes
   on without an exception.  With a request that is no UTF-8 it answers, and
   then it raises. *)
Theorem c70_answer_partial : forall C version date s s1 q s2 code, visible version -> visible date ->
  do_handshake C s = (Ok tt, s1) -> wread C s1 = (Ok q, s2) -> judged q code ->
  exists m d rest, m = map Nb (txt "HTTP/1.1 " ++ d ++ [32]) ++ rest /\ numeral code d /\
    carries m (if code =? 200 then map Nb (txt "Hello from siotls" ++ [10]) else []) /\
    forall s3 s4, wwrite C m s2 = (Ok tt, s3) -> wclose C s3 = (Ok tt, s4) ->
      snd (handle_one C version date s) = s4 /\ (fst (handle_one C version date s) = Ok tt <-> exists t, utf8 t q).
Proof. exact answered. Qed.
Print Assumptions c70_answer_partial.
Definition c70_client (q : bytes) : bytes := c_out (run toy [OInit; OFlush; ORecv (c_out toy_s2); OSend q] toy_c0).
Definition c70_run (q : bytes) := handle_one toy [48] [48] (toy_s0, mkSock [Ok (c_out toy_c1); Ok (c70_client q)] [] []).
Definition c70_read (q : bytes) : bool :=
  match do_handshake toy (toy_s0, mkSock [Ok (c_out toy_c1); Ok (c70_client q)] [] []) with
  | (Ok _, s1) => match wread toy s1 with (Ok q', _) => beqb q' q | _ => false end
  | _ => false
  end.
Example c70_answer_case : c70_read (c70_ask "GET / HTTP/1.1") = true /\ fst (c70_run (c70_ask "GET / HTTP/1.1")) = Ok tt /\ c70_read [xff] = true.
Proof. split; [vm_compute; reflexivity|]. split; vm_compute; reflexivity. Qed.
(* One octet from the client, and the function that serves it raises an exception
   of the program, after its answer. *)
Theorem c70_garbage_refuted : exists C g c k q s1 s2 m s3 s4, created g c /\ g_side g = Server /\ do_handshake C (c, k) = (Ok tt, s1) /\
  wread C s1 = (Ok q, s2) /\ judged q 400 /\ utf8_encode (http_response [48] [48] 400 []) = Some m /\ wwrite C m s2 = (Ok tt, s3) /\
  wclose C s3 = (Ok tt, s4) /\ handle_one C [48] [48] (c, k) = (Err (XOther 0), s4).
Proof.
  set (k := mkSock [Ok (c_out toy_c1); Ok (c70_client [xff])] [] []).
  set (s1 := snd (do_handshake toy (toy_s0, k))). set (s2 := snd (wread toy s1)).
  set (m := map Nb (http_response [48] [48] 400 [])). set (s3 := snd (wwrite toy m s2)).
  exists toy, toy_server, toy_s0, k, [xff], s1, s2, m, s3, (snd (wclose toy s3)).
  assert (E1 : do_handshake toy (toy_s0, k) = (Ok tt, s1)) by (apply fst_ok; vm_compute; reflexivity).
  assert (E2 : wread toy s1 = (Ok [xff], s2)) by (apply fst_ok; vm_compute; reflexivity).
  assert (E3 : wwrite toy m s2 = (Ok tt, s3)) by (apply fst_ok; vm_compute; reflexivity).
  assert (E4 : wclose toy s3 = (Ok tt, snd (wclose toy s3))) by (apply fst_ok; vm_compute; reflexivity).
  assert (Em : utf8_encode (http_response [48] [48] 400 []) = Some m) by (vm_compute; reflexivity).
  split; [exact toy_s0_created|]. split; [reflexivity|]. split; [exact E1|]. split; [exact E2|]. split; [apply c70_code; reflexivity|].
  split; [exact Em|]. split; [exact E3|]. split; [exact E4|].
  exact (garbage_raises toy [48] [48] (toy_s0, k) s1 [xff] s2 m s3 _ E1 E2 eq_refl Em E3 E4).
Qed.
Print Assumptions c70_garbage_refuted.
