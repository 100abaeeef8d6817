(** Independent specification of the RPC datagrams: what is at which offset of a
    call, the layouts of the standards (RFC 5531 for RPC, RFC 4506 for XDR, RFC
    1094 for NFS and mount; texts are UTF-16LE as rekordbox players send them),
    and a reader of export lists.  Nothing here uses the encoders or parsers of
    the model. *)

From Verif Require Import Base Unicode SUdp MRpc.
From Coq Require Import ZArith.
Open Scope list_scope.
Open Scope N_scope.

(** ** What the bytes of a call say *)

Definition program_number (p : rpc_program) : N :=
  match p with Portmap => 100000 | Nfs => 100003 | Mount => 100005 end.

Definition utf16le (s : str) : bytes := flat_map (fun u => [u mod 256; u / 256]) (utf16_encode s).

(** The [n] bytes from [o] hold the text [s] in UTF-16LE. *)
Definition text16_at (o n : nat) (d : bytes) (s : str) : Prop :=
  reaches (o + n) d /\ str_ok s /\ slice o n d = utf16le s.

(** The number of whole 16-bit units announced at [o], in bytes. *)
Definition even_length_at (o : nat) (d : bytes) : nat := N.to_nat (2 * (number_at o 4 d / 2)).

(** The arguments, from offset 60. *)
Definition args_say (d : bytes) (program : rpc_program) (proc : N) (p : rpc_procedure) : Prop :=
  match p with
  | PortmapNull => program = Portmap /\ proc = 0
  | PortmapSet => program = Portmap /\ proc = 1
  | PortmapUnset => program = Portmap /\ proc = 2
  | PortmapGetport g =>
      program = Portmap /\ proc = 3 /\ reaches 76 d /\
      number_at 60 4 d = program_number (gp_program g) /\ gp_version g = number_at 64 4 d /\
      number_at 68 4 d = 17 /\ gp_protocol g = ProtoUdp /\ gp_port g = number_at 72 4 d
  | PortmapDump => program = Portmap /\ proc = 4
  | PortmapCallResult => program = Portmap /\ proc = 5
  | NfsGetAttr h => program = Nfs /\ proc = 1 /\ reaches 92 d /\ h = slice 60 32 d
  | NfsLookup l =>
      program = Nfs /\ proc = 4 /\ reaches 96 d /\ lk_fhandle l = slice 60 32 d /\
      exists name, text16_at 96 (even_length_at 92 d) d name /\ lk_filename l = utf8_encode name
  | NfsRead r =>
      program = Nfs /\ proc = 6 /\ reaches 104 d /\ rd_fhandle r = slice 60 32 d /\
      rd_offset r = number_at 92 4 d /\ rd_count r = number_at 96 4 d /\ rd_total r = number_at 100 4 d
  | MountMnt paths =>
      program = Mount /\ proc = 1 /\ reaches (64 + even_length_at 60 d + 2) d /\
      exists path, text16_at 64 (even_length_at 60 d) d path /\ paths = [path]
  | MountExport => program = Mount /\ proc = 5
  | NfsNull | MountNull => False
  end.

(** The datagram [d] is the call [m]: seven words of credentials, and a verifier
    of flavor 0 or 1 whose body is taken to be empty. *)
Definition call_says (d : bytes) (m : rpc_message) : Prop :=
  exists c, rpc_body m = Call c /\ reaches 60 d /\
  rpc_xid m = number_at 0 4 d /\ number_at 4 4 d = 0 /\ ca_version c = number_at 8 4 d /\
  number_at 12 4 d = program_number (ca_program c) /\ ca_program_version c = number_at 16 4 d /\
  ca_credentials c = mkCred (number_at 24 4 d) (number_at 28 4 d) (number_at 32 4 d)
    (number_at 36 4 d) (number_at 40 4 d) (number_at 44 4 d) (number_at 48 4 d) /\
  (number_at 52 4 d = 0 /\ ca_verifier c = AuthNull \/ number_at 52 4 d = 1 /\ ca_verifier c = AuthUnix) /\
  args_say d (ca_program c) (number_at 20 4 d) (ca_procedure c).

(** ** Standard layouts *)

Definition word (x : N) : bytes :=
  [x / 16777216 mod 256; x / 65536 mod 256; x / 256 mod 256; x mod 256].
Definition word_ok (x : N) : Prop := x < 4294967296.

(** XDR variable-length opaque data and its padding (RFC 4506, 4.10). *)
Definition xdr_padding (n : N) : N := (4 - n mod 4) mod 4.
Definition xdr_opaque (b : bytes) : bytes :=
  word (len b) ++ b ++ repeat 0 (N.to_nat (xdr_padding (len b))).

(** [opaque_auth] (RFC 5531, 8.2) and the AUTH_UNIX body (appendix A). *)
Definition std_auth (flavor : N) (body : bytes) : bytes := word flavor ++ xdr_opaque body.
Definition unix_body (stamp : N) (machine : bytes) (uid gid : N) (gids : list N) : bytes :=
  word stamp ++ xdr_opaque machine ++ word uid ++ word gid ++ word (len gids) ++ flat_map word gids.

(** A call (RFC 5531, 9). *)
Definition std_call (xid rpcvers prog vers proc : N) (cred verf args : bytes) : bytes :=
  word xid ++ word 0 ++ word rpcvers ++ word prog ++ word vers ++ word proc ++ cred ++ verf ++ args.

(** Arguments of the supported procedures, with their program and number. *)
Inductive std_args : rpc_procedure -> rpc_program -> N -> bytes -> Prop :=
| std_pm_null : std_args PortmapNull Portmap 0 []
| std_pm_dump : std_args PortmapDump Portmap 4 []
| std_pm_getport p v port : word_ok v -> word_ok port ->
    std_args (PortmapGetport (mkGetport v p ProtoUdp port)) Portmap 3
      (word (program_number p) ++ word v ++ word 17 ++ word port)
| std_getattr h : len h = 32 -> std_args (NfsGetAttr h) Nfs 1 h
| std_lookup h name : len h = 32 -> str_ok name -> word_ok (len (utf16le name)) ->
    std_args (NfsLookup (mkLookup (utf8_encode name) h)) Nfs 4 (h ++ xdr_opaque (utf16le name))
| std_read h offset cnt total : len h = 32 -> word_ok offset -> word_ok cnt -> word_ok total ->
    std_args (NfsRead (mkRead h offset cnt total)) Nfs 6 (h ++ word offset ++ word cnt ++ word total)
| std_export : std_args MountExport Mount 5 []
| std_mnt path : str_ok path -> word_ok (len (utf16le path)) ->
    std_args (MountMnt [path]) Mount 1 (xdr_opaque (utf16le path)).

(** An accepted, successful reply with an empty null verifier (RFC 5531, 9). *)
Definition std_reply (xid : N) (result : bytes) : bytes :=
  word xid ++ word 1 ++ word 0 ++ std_auth 0 [] ++ word 0 ++ result.

(** [fattr] (RFC 1094, 2.3.5) is described in SNfs.v; results that contain one
    take its bytes as a parameter. *)
Definition std_getport_result (port : N) : bytes := word port.
Definition std_mnt_result (status : N) (handle : bytes) : bytes := word status ++ handle.
Definition std_lookup_result (handle fattr : bytes) : bytes := word 0 ++ handle ++ fattr.
Definition std_getattr_result (fattr : bytes) : bytes := word 0 ++ fattr.
Definition std_read_result (fattr data : bytes) : bytes := word 0 ++ fattr ++ xdr_opaque data.

(** ** A reader of export lists (RFC 1094, A.4.6)

    The values of padding bytes are not looked at, and bytes after the list are
    handed back. *)

Definition read_word (b : bytes) : option (N * bytes) :=
  match b with
  | w :: x :: y :: z :: r => Some (w * 16777216 + x * 65536 + y * 256 + z, r)
  | _ => None
  end.

Definition read_bool (b : bytes) : option (bool * bytes) :=
  match read_word b with
  | Some (0, r) => Some (false, r)
  | Some (1, r) => Some (true, r)
  | _ => None
  end.

Definition read_opaque (b : bytes) : option (bytes * bytes) :=
  match read_word b with
  | Some (n, r) =>
      if len r <? n + xdr_padding n then None
      else Some (firstn (N.to_nat n) r, skipn (N.to_nat (n + xdr_padding n)) r)
  | None => None
  end.

(** The [fuel] is at least the number of elements; the length of the input is
    always enough. *)
Fixpoint read_groups (fuel : nat) (b : bytes) : option (list bytes * bytes) :=
  match fuel with
  | O => None
  | Datatypes.S fuel =>
      match read_bool b with
      | Some (false, r) => Some ([], r)
      | Some (true, r) =>
          match read_opaque r with
          | Some (g, r) =>
              match read_groups fuel r with
              | Some (gs, r) => Some (g :: gs, r)
              | None => None
              end
          | None => None
          end
      | None => None
      end
  end.

Fixpoint read_exports (fuel : nat) (b : bytes) : option (list (bytes * list bytes) * bytes) :=
  match fuel with
  | O => None
  | Datatypes.S fuel =>
      match read_bool b with
      | Some (false, r) => Some ([], r)
      | Some (true, r) =>
          match read_opaque r with
          | Some (dir, r) =>
              match read_groups (List.length b) r with
              | Some (gs, r) =>
                  match read_exports fuel r with
                  | Some (es, r) => Some ((dir, gs) :: es, r)
                  | None => None
                  end
              | None => None
              end
          | None => None
          end
      | None => None
      end
  end.

(** The export list in the reply datagram [d], read past its 24-byte header, and
    the bytes after it. *)
Definition exports_in (d : bytes) : option (list (bytes * list bytes) * bytes) :=
  read_exports (List.length d) (skipn 24 d).

(** The decimal text of a number below 256, and of an IPv4 address. *)
Definition octet_text (n : N) : bytes :=
  if n <? 10 then [48 + n]
  else if n <? 100 then [48 + n / 10; 48 + n mod 10]
  else [48 + n / 100; 48 + n / 10 mod 10; 48 + n mod 10].
Definition dotted_text (a b c d : N) : bytes :=
  octet_text a ++ [46] ++ octet_text b ++ [46] ++ octet_text c ++ [46] ++ octet_text d.
