(* A reader of NSS key log files: lines "label client_random secret", in
   hexadecimal, and the record protection keys of RFC 8446 7.3 for the
   secrets found. *)
From Verif Require Import Base Iana Crypto Cipher S_Utils S_Keys.
Local Open Scope string_scope.
Local Open Scope list_scope.
Local Open Scope N_scope.

(* the words of a line *)
Fixpoint words (b : bytes) : list bytes :=
  match b with
  | [] => [[]]
  | c :: b' =>
    if Byte.eqb c x20 then [] :: words b'
    else match words b' with w :: ws => (c :: w) :: ws | [] => [[c]] end
  end.
Fixpoint unhex_word (b : bytes) : option bytes :=
  match b with
  | [] => Some []
  | c :: d :: b' =>
    match unhex c, unhex d, unhex_word b' with
    | Some x, Some y, Some r => Some (Nb (x * 16 + y) :: r)
    | _, _, _ => None
    end
  | [_] => None
  end.
Definition read_line (b : bytes) : option (bytes * bytes * bytes) :=
  match words b with
  | [label; random; secret] =>
    match unhex_word random, unhex_word secret with
    | Some r, Some s => Some (label, r, s)
    | _, _ => None
    end
  | _ => None
  end.
(* [secret] is in the file [lines] under [label], for the session [random] *)
Definition filed (lines : list bytes) (label : String.string) (random secret : bytes) : Prop :=
  exists l, In l lines /\ read_line l = Some (ascii_bytes label, random, secret).

(* the labels of the secrets protecting what [sd] sends *)
Definition traffic_labels (sd : side) : list String.string :=
  match sd with
  | Client => ["CLIENT_HANDSHAKE_TRAFFIC_SECRET"; "CLIENT_TRAFFIC_SECRET_0"]
  | Server => ["SERVER_HANDSHAKE_TRAFFIC_SECRET"; "SERVER_TRAFFIC_SECRET_0"]
  end.
(* 7.3, 5.3: the file gives the key and, with the number of the record, the
   nonce that this record was sealed with *)
Definition opened_by (C : crypto) (lines : list bytes) (random : bytes) (s : sealing) : Prop :=
  exists sd label secret h klen n, In label (traffic_labels sd) /\ filed lines label random secret /\
    In (se_suite s, (h, klen)) suite_table /\ se_key s = traffic_key C h klen secret /\
    se_nonce s = be_bytes 12 (N.lxor (of_bytes (traffic_iv C h secret)) n).
(* the same for the keys in use in one direction *)
Definition keys_filed (C : crypto) (lines : list bytes) (random : bytes) (sd : side) (suite : N) (d : dir) : Prop :=
  exists label secret h klen, In label (traffic_labels sd) /\ filed lines label random secret /\
    In (suite, (h, klen)) suite_table /\ uses C h klen secret d.

(* the lines of a whole handshake: [th] and [th_sf] are the transcript hashes up
   to the ServerHello and to the server's Finished *)
Definition five_lines (C : crypto) (h : hashalg) (shared th th_sf : bytes) : list (String.string * bytes) :=
  [("CLIENT_HANDSHAKE_TRAFFIC_SECRET", hs_traffic C h Client shared th);
   ("SERVER_HANDSHAKE_TRAFFIC_SECRET", hs_traffic C h Server shared th);
   ("CLIENT_TRAFFIC_SECRET_0", ap_traffic C h Client shared th_sf);
   ("SERVER_TRAFFIC_SECRET_0", ap_traffic C h Server shared th_sf);
   ("EXPORTER_SECRET", derived C h (master_secret C h shared) "exp master" th_sf)].
(* the file [lines] holds these and nothing else, in this order *)
Definition holds (lines : list bytes) (random : bytes) (entries : list (String.string * bytes)) : Prop :=
  Forall2 (fun l e => read_line l = Some (ascii_bytes (fst e), random, snd e)) lines entries.
