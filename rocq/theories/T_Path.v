From Verif Require Import Base Utils Examples Main P_Path.

(* C73: the file with the authorities of the system, for names in ASCII, in the
   model of the library and in that of the command line *)
Theorem c73_same_path id like : Forall (fun x => bN x < 128) like ->
  get_ca_certificates_path (Some id) (Some like) = ca_path (map bN id :: text_split [] (map bN like)).
Proof. exact (models_agree id like). Qed.
Print Assumptions c73_same_path.
Example c73_path_case :
  get_ca_certificates_path (Some (ascii_bytes "linuxmint"%string)) (Some (ascii_bytes " arch  debian"%string)) =
    Ok (ascii_bytes "/etc/ca-certificates/extracted/tls-ca-bundle.pem"%string) /\
  get_ca_certificates_path (Some (ascii_bytes "gentoo"%string)) None = Err XValue.
Proof. split; vm_compute; reflexivity. Qed.
