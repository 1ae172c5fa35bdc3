(* C85 *)
From Verif Require Import Base P_Base Iana Crypto Config Serial Ext Msg Cipher Conn S_Hist S_Conn S_Codec S_Layout S_Shuffle P_Shuffle P_Shuffle2 Toy P_Toy P_PackToy.

(* C85.  Full statement: the order in which a peer lists the extensions of a
   message changes nothing, as long as no type comes twice and, in a
   ClientHello, pre_shared_key is not among them.  The message is read, or not,
   in both orders; if it is, both have the same effect on every connection, but
   for the transcript, that takes the bytes as they are. *)

(* of messages that have been read, with the extensions of every certificate *)
Theorem c85_process : forall C h h' c, reordered h h' -> process C (KHandshake h) c = process C (KHandshake h') c.
Proof. exact process_shuffled. Qed.
Print Assumptions c85_process.

(* of a list of extensions, wherever it is: each is read as it is when alone *)
Theorem c85_block : forall C h items items' es, small items -> Permutation items items' ->
  parse_list (parse_ext C h) (blk items) = Ok es ->
  map ext_type es = map fst items /\ exists es', parse_list (parse_ext C h) (blk items') = Ok es' /\ Permutation es es'.
Proof. exact block_shuffled. Qed.
Print Assumptions c85_block.

(* of the messages that carry a list *)
Theorem c85_read : forall C pct r items items' k, fits r -> small items -> NoDup (map fst items) ->
  (kind r = 1 -> ~ In PRE_SHARED_KEY (map fst items)) -> Permutation items items' ->
  parse_content C pct CT_HANDSHAKE (wire r items) = Ok k ->
  exists h h', k = KHandshake h /\ parse_content C pct CT_HANDSHAKE (wire r items') = Ok (KHandshake h') /\ reordered h h'.
Proof. exact read_shuffled. Qed.
Print Assumptions c85_read.
Theorem c85_refused : forall C pct r items items', fits r -> small items -> NoDup (map fst items) ->
  (kind r = 1 -> ~ In PRE_SHARED_KEY (map fst items)) -> Permutation items items' ->
  ((exists x, parse_content C pct CT_HANDSHAKE (wire r items) = Err x) <-> exists x, parse_content C pct CT_HANDSHAKE (wire r items') = Err x).
Proof. exact refused_shuffled. Qed.
Print Assumptions c85_refused.
Theorem c85_same : forall C pct r items items' k, fits r -> small items -> NoDup (map fst items) ->
  (kind r = 1 -> ~ In PRE_SHARED_KEY (map fst items)) -> Permutation items items' ->
  parse_content C pct CT_HANDSHAKE (wire r items) = Ok k ->
  exists k', parse_content C pct CT_HANDSHAKE (wire r items') = Ok k' /\ forall c, process C k c = process C k' c.
Proof. exact same_shuffled. Qed.
Print Assumptions c85_same.

(* a server's extensions: heartbeat and the protocol, and the other way round *)
Definition sh_a : list (N * bytes) := [(15, [x01]); (16, [x00; x03; x02; x68; x32])].
Definition sh_b : list (N * bytes) := [(16, [x00; x03; x02; x68; x32]); (15, [x01])].
Example c85_case : fits REncExt /\ small sh_a /\ NoDup (map fst sh_a) /\ (kind REncExt = 1 -> ~ In PRE_SHARED_KEY (map fst sh_a)) /\ Permutation sh_a sh_b /\
  wire REncExt sh_a <> wire REncExt sh_b /\
  parse_content toy None CT_HANDSHAKE (wire REncExt sh_a) = Ok (KHandshake (HEncExt [EHeartbeat 1; EAlpn [[x68; x32]]])) /\
  parse_content toy None CT_HANDSHAKE (wire REncExt sh_b) = Ok (KHandshake (HEncExt [EAlpn [[x68; x32]]; EHeartbeat 1])) /\
  c_state pk_c = ClientWaitEncryptedExtensions /\
  fst (process toy (KHandshake (HEncExt [EAlpn [[x68; x32]]; EHeartbeat 1])) pk_c) = Ok tt.
Proof.
  split; [exact I|]. split; [split; [repeat constructor|]; vm_compute; reflexivity|]. split; [repeat constructor; cbn; intuition discriminate|].
  split; [discriminate|]. split; [apply perm_swap|]. split; [vm_compute; discriminate|]. repeat split; vm_compute; reflexivity.
Qed.
(* a ClientHello: the heads of messages are those of RFC 8446 *)
Example c85_hello_case :
  fits (RClientHello (repeat x07 32) [x09] [4865]) /\
  parse_content toy None CT_HANDSHAKE (wire (RClientHello (repeat x07 32) [x09] [4865]) [(43, [x02; x03; x04]); (15, [x01])]) =
    Ok (KHandshake (HClientHello (repeat x07 32) [x09] [4865] [ESupVersionsReq [772]; EHeartbeat 1])) /\
  parse_content toy None CT_HANDSHAKE (wire (RServerHello (repeat x07 32) [x09] 4865) [(43, [x03; x04])]) =
    Ok (KHandshake (HServerHello false (repeat x07 32) [x09] 4865 [ESupVersionsResp 772])) /\
  parse_content toy None CT_HANDSHAKE (wire (RCertReq [x09]) [(13, [x00; x02; x08; x07])]) =
    Ok (KHandshake (HCertReq [x09] [ESigAlgs [2055]])).
Proof. split; [split; [reflexivity|]; split; [reflexivity|]; split; [repeat constructor | reflexivity]|]. repeat split; vm_compute; reflexivity. Qed.
Example c85_entry_case :
  reordered (HCert [] [mkEntry CT_X509 [x01] [EOcspStatus [x30]; EUnknown 7 []]]) (HCert [] [mkEntry CT_X509 [x01] [EUnknown 7 []; EOcspStatus [x30]]]).
Proof.
  constructor. constructor; [|constructor]. split; [reflexivity|]. split; [reflexivity|].
  split; [repeat constructor; vm_compute; intuition discriminate | apply perm_swap].
Qed.

(* Not so when a type comes twice, that RFC 8446 section 4.2 forbids: a client
   accepts it of a server, and the last one counts *)
Theorem c85_twice_refuted : exists C g c items items' k k', reachable C g c /\ small items /\ ~ NoDup (map fst items) /\ Permutation items items' /\
  parse_content C None CT_HANDSHAKE (wire REncExt items) = Ok k /\ parse_content C None CT_HANDSHAKE (wire REncExt items') = Ok k' /\
  fst (process C k c) = Ok tt /\ fst (process C k' c) = Ok tt /\
  option_map n_send_hb (c_nc (snd (process C k c))) = Some (Some false) /\ option_map n_send_hb (c_nc (snd (process C k' c))) = Some (Some true).
Proof.
  exists toy, toy_client, pk_c, [(15, [x01]); (15, [x02])], [(15, [x02]); (15, [x01])], (KHandshake (HEncExt [EHeartbeat 2])), (KHandshake (HEncExt [EHeartbeat 1])).
  split; [exact pk_reachable|]. split; [split; [repeat constructor|]; vm_compute; reflexivity|].
  split; [intro X; inversion X as [|? ? N _]; apply N; left; reflexivity|]. split; [apply perm_swap|].
  repeat split; vm_compute; reflexivity.
Qed.
Print Assumptions c85_twice_refuted.
