(* C39, C40, C41: helpers and configuration. *)
From Verif Require Import Base Iana Config Utils S_Utils P_Utils Toy.

(* C39: any interleaving of next and peek on a peekable behaves as on the
   plain list of the elements, where peek only looks. *)
Theorem c39_peekable : forall A (ops : list (pop A)) (l : list A),
  pk_ops ops (peekable_new l) = list_ops ops l.
Proof. exact @peekable_ops. Qed.
Print Assumptions c39_peekable.

Example c39_ex : pk_ops [PPeek None; PNext; PNext; PPeek (Some 9); PPeek None; PNext; PPeek (Some 9); PPeek None; PNext]
    (peekable_new [1; 2; 3]) =
  [Ok 1; Ok 1; Ok 2; Ok 3; Ok 3; Ok 3; Ok 9; Err XStop; Err XStop].
Proof. reflexivity. Qed.

(* C40 *)
Theorem c40_config : forall g,
  check_config g = Ok tt <->
  g_suites g <> [] /\ g_groups g <> [] /\ g_sigalgs g <> [] /\
  match g_side g with
  | Server => g_mfl g = 16384 /\ g_private g <> None /\
              ((exists c l, g_chain g = Some (c :: l)) \/ exists k, g_public g = Some k)
  | Client => g_hostnames g = []
  end.
Proof. exact check_config_iff. Qed.
Print Assumptions c40_config.

Theorem c40_value_error : forall g e, check_config g = Err e -> e = XValue.
Proof. exact check_config_err. Qed.
Print Assumptions c40_value_error.

Example c40_ex : check_config toy_client = Ok tt /\ check_config toy_server = Ok tt /\
  check_config (restrict toy_client 1 2 []) = Err XValue.
Proof. repeat split. Qed.

(* C41: reading a dump back (checking offsets and line lengths) gives the data. *)
Theorem c41_hexdump : forall b, undump (hexdump b) = Some b.
Proof. exact undump_hexdump. Qed.
Print Assumptions c41_hexdump.

(* the text columns show every byte too, one printable character each *)
Theorem c41_text : forall b, Forall2 shown b (dump_text (hexdump b)).
Proof. exact hexdump_text. Qed.
Print Assumptions c41_text.

Example c41_ex : hexdump (ascii_bytes "Hello world!!"%string ++ [x00; x0a; xff; x7e; x20]) =
  ascii_bytes "0000: 48 65 6c 6c 6f 20 77 6f  72 6c 64 21 21 00 0a ff  Hello wo rld!!0 ."%string
  ++ [x0a] ++
  ascii_bytes "0010: 7e 20                                             ~ "%string.
Proof. vm_compute. reflexivity. Qed.
