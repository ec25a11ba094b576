(** Model of lib/gensio_certauth.c: the authentication filter, client and server.  Each
    function below is one function of the C code.  What OpenSSL and the application answer
    is given from outside.  Not modelled: failing allocations, locks (a call from the
    application inside an event is not possible here), the controls, logging. *)
From Verif Require Import Base.
Open Scope Z_scope.

Notation "s |> f" := (f s) (at level 59, left associativity, only parsing).

(** include/gensio/gensio_err.h *)
Definition GE_NOMEM := 1.
Definition GE_NOTSUP := 2.
Definition GE_INVAL := 3.
Definition GE_INPROGRESS := 11.
Definition GE_NOTREADY := 12.
Definition GE_TOOBIG := 13.
Definition GE_TIMEDOUT := 14.
Definition GE_RETRY := 15.
Definition GE_NOCERT := 21.
Definition GE_CERTINVALID := 22.
Definition GE_PROTOERR := 23.
Definition GE_IOERR := 25.
Definition GE_DATAMISSING := 29.
Definition GE_AUTHREJECT := 31.

(** enum certauth_state, lines 224-345; states up to 6 are message numbers also *)
Definition CLIENT_START := 0.
Definition CLIENTHELLO := 1.
Definition SERVERHELLO := 2.
Definition CHALLENGE_RESPONSE := 3.
Definition PASSWORD_REQUEST := 4.
Definition PASSWORD := 5.
Definition SERVERDONE := 6.
Definition STATE_MAX := 6.
Definition WAIT_WRITE_DONE := 107.
Definition PASSTHROUGH := 108.
Definition ERR := 109.
Definition CLIENTDELAY := 110.

(** enum certauth_elements and limits, lines 354-445 *)
Definition E_VERSION := 100.
Definition E_USERNAME := 101.
Definition E_OPTIONS := 102.
Definition E_CHALLENGE_DATA := 103.
Definition E_CHALLENGE_RSP := 104.
Definition E_CERTIFICATE := 105.
Definition E_RESULT := 106.
Definition E_SERVICE := 107.
Definition E_PASSWORD_DATA := 108.
Definition E_DUMMY_DATA := 109.
Definition E_PASSWORD_TYPE := 110.
Definition E_2FA_DATA := 111.
Definition E_AUX_DATA := 112.
Definition E_END := 200.
Definition MIN_ELEMENT := 100.
Definition MAX_ELEMENT := 112.
Definition R_SUCCESS := 1.
Definition R_FAILURE := 2.
Definition R_ERR := 3.
Definition PT_REQ := 1.
Definition PT_DUMMY := 2.
Definition PT_2FA := 256.

(** GENSIO_CERTAUTH_DATA_SIZE etc., lines 202-210 *)
Definition DATA_SIZE : nat := Z.to_nat 2048.
Definition CHALLENGE_SIZE : nat := 32.
Definition PASSWORD_LEN : nat := 100.

(** The settings, struct certauth_filter 453-560.  [c_cert], [c_pkey]: the client has a
    certificate (in PEM format) and a key. *)
Record cfg := mkcfg {
  c_client : bool; c_authfail : bool; c_child : bool; c_enpw : bool; c_reqpw : bool; c_2fa : bool;
  c_ver : Z; c_cert : option (list Z); c_pkey : bool; c_aux : option (list Z) }.

(** What is seen of a filter, newest first: elements handled, questions to the application
    and to OpenSSL with the answers, random data, bytes for the lower layer, ends of the open. *)
Inductive ev :=
  | TElem (e : Z) (d : list Z)
  | TBegin (r : Z) | TPre (r : Z)
  | TStore (c : list Z) (r : Z)                         (* the certificate [c] against the store *)
  | TPost (r : Z)
  | TSig (c d sg : list Z) (ok : bool)                  (* signature [sg] of [d] by the key of [c] *)
  | TRand (d : list Z)
  | TPw (p : list Z) (r : Z) | T2fa (v : list Z) (r : Z)
  | TChild                                              (* the child was authenticated, and that is used *)
  | TDone (r : Z)                                       (* SERVERDONE with this result composed *)
  | TPut (d : list Z)                                   (* taken by the lower layer *)
  | TRead (d : list Z)                                  (* taken by the user after the open *)
  | TOpen (rv : Z) (a : bool)                           (* check_open_done gave rv; gensio_is_authenticated then *)
  | TFail (e : Z).                                      (* the open failed in try_connect *)

(** Answers during one call of try_connect or ll_write.  [a_begin], [a_pre], [a_post],
    [a_pw], [a_2fa]: of the application.  [a_store]: 0 or the error X509_verify_cert stands
    for; [a_nomem]: no verification context.  [a_rand]: RAND_bytes.  [a_sign], [a_pksize]:
    signing.  [a_getpw], [a_get2fa]: what the client application gives when asked. *)
Record ans := mkans {
  a_begin : Z; a_pre : Z; a_store : Z; a_nomem : bool; a_post : Z; a_pw : Z; a_2fa : Z;
  a_rand : option (list Z); a_sign : option (list Z); a_pksize : nat;
  a_getpw : Z * list Z; a_get2fa : Z * option (list Z) }.

(** OpenSSL as functions: is this PEM text a certificate; does the key of this certificate
    accept this signature of this data with this digest ([None]: it reports an error). *)
Record ossl := mkossl { is_cert : list Z -> bool; sig_ok : bool -> Z -> list Z -> list Z -> list Z -> option bool }.

(** struct certauth_filter, lines 453-567.  Lengths kept beside a pointer are lengths of lists
    here.  [auth]: the flag gensio_is_authenticated() reports; [fin]: the open is over. *)
Record ca := mkca {
  st : Z; perr : Z; ver : Z; res : Z; rres : Z; vfd : bool; user : option (list Z); svc : option (list Z); preq : Z; pw : option (list Z); r2fa : bool; v2fa : option (list Z); raux : option (list Z); chal : option (list Z); cert : option (list Z); dig : Z; rbuf : list Z; rlen : nat; wbuf : list Z; wlen : nat; wpos : nat; mt : Z; ce : Z; celen : nat; b1 : bool; b2 : bool; got : bool; auth : bool; fin : bool; tr : list ev }.
Definition set_st (v : Z) (s : ca) : ca := mkca v (perr s) (ver s) (res s) (rres s) (vfd s) (user s) (svc s) (preq s) (pw s) (r2fa s) (v2fa s) (raux s) (chal s) (cert s) (dig s) (rbuf s) (rlen s) (wbuf s) (wlen s) (wpos s) (mt s) (ce s) (celen s) (b1 s) (b2 s) (got s) (auth s) (fin s) (tr s).
Definition set_perr (v : Z) (s : ca) : ca := mkca (st s) v (ver s) (res s) (rres s) (vfd s) (user s) (svc s) (preq s) (pw s) (r2fa s) (v2fa s) (raux s) (chal s) (cert s) (dig s) (rbuf s) (rlen s) (wbuf s) (wlen s) (wpos s) (mt s) (ce s) (celen s) (b1 s) (b2 s) (got s) (auth s) (fin s) (tr s).
Definition set_ver (v : Z) (s : ca) : ca := mkca (st s) (perr s) v (res s) (rres s) (vfd s) (user s) (svc s) (preq s) (pw s) (r2fa s) (v2fa s) (raux s) (chal s) (cert s) (dig s) (rbuf s) (rlen s) (wbuf s) (wlen s) (wpos s) (mt s) (ce s) (celen s) (b1 s) (b2 s) (got s) (auth s) (fin s) (tr s).
Definition set_res (v : Z) (s : ca) : ca := mkca (st s) (perr s) (ver s) v (rres s) (vfd s) (user s) (svc s) (preq s) (pw s) (r2fa s) (v2fa s) (raux s) (chal s) (cert s) (dig s) (rbuf s) (rlen s) (wbuf s) (wlen s) (wpos s) (mt s) (ce s) (celen s) (b1 s) (b2 s) (got s) (auth s) (fin s) (tr s).
Definition set_rres (v : Z) (s : ca) : ca := mkca (st s) (perr s) (ver s) (res s) v (vfd s) (user s) (svc s) (preq s) (pw s) (r2fa s) (v2fa s) (raux s) (chal s) (cert s) (dig s) (rbuf s) (rlen s) (wbuf s) (wlen s) (wpos s) (mt s) (ce s) (celen s) (b1 s) (b2 s) (got s) (auth s) (fin s) (tr s).
Definition set_vfd (v : bool) (s : ca) : ca := mkca (st s) (perr s) (ver s) (res s) (rres s) v (user s) (svc s) (preq s) (pw s) (r2fa s) (v2fa s) (raux s) (chal s) (cert s) (dig s) (rbuf s) (rlen s) (wbuf s) (wlen s) (wpos s) (mt s) (ce s) (celen s) (b1 s) (b2 s) (got s) (auth s) (fin s) (tr s).
Definition set_user (v : option (list Z)) (s : ca) : ca := mkca (st s) (perr s) (ver s) (res s) (rres s) (vfd s) v (svc s) (preq s) (pw s) (r2fa s) (v2fa s) (raux s) (chal s) (cert s) (dig s) (rbuf s) (rlen s) (wbuf s) (wlen s) (wpos s) (mt s) (ce s) (celen s) (b1 s) (b2 s) (got s) (auth s) (fin s) (tr s).
Definition set_svc (v : option (list Z)) (s : ca) : ca := mkca (st s) (perr s) (ver s) (res s) (rres s) (vfd s) (user s) v (preq s) (pw s) (r2fa s) (v2fa s) (raux s) (chal s) (cert s) (dig s) (rbuf s) (rlen s) (wbuf s) (wlen s) (wpos s) (mt s) (ce s) (celen s) (b1 s) (b2 s) (got s) (auth s) (fin s) (tr s).
Definition set_preq (v : Z) (s : ca) : ca := mkca (st s) (perr s) (ver s) (res s) (rres s) (vfd s) (user s) (svc s) v (pw s) (r2fa s) (v2fa s) (raux s) (chal s) (cert s) (dig s) (rbuf s) (rlen s) (wbuf s) (wlen s) (wpos s) (mt s) (ce s) (celen s) (b1 s) (b2 s) (got s) (auth s) (fin s) (tr s).
Definition set_pw (v : option (list Z)) (s : ca) : ca := mkca (st s) (perr s) (ver s) (res s) (rres s) (vfd s) (user s) (svc s) (preq s) v (r2fa s) (v2fa s) (raux s) (chal s) (cert s) (dig s) (rbuf s) (rlen s) (wbuf s) (wlen s) (wpos s) (mt s) (ce s) (celen s) (b1 s) (b2 s) (got s) (auth s) (fin s) (tr s).
Definition set_r2fa (v : bool) (s : ca) : ca := mkca (st s) (perr s) (ver s) (res s) (rres s) (vfd s) (user s) (svc s) (preq s) (pw s) v (v2fa s) (raux s) (chal s) (cert s) (dig s) (rbuf s) (rlen s) (wbuf s) (wlen s) (wpos s) (mt s) (ce s) (celen s) (b1 s) (b2 s) (got s) (auth s) (fin s) (tr s).
Definition set_v2fa (v : option (list Z)) (s : ca) : ca := mkca (st s) (perr s) (ver s) (res s) (rres s) (vfd s) (user s) (svc s) (preq s) (pw s) (r2fa s) v (raux s) (chal s) (cert s) (dig s) (rbuf s) (rlen s) (wbuf s) (wlen s) (wpos s) (mt s) (ce s) (celen s) (b1 s) (b2 s) (got s) (auth s) (fin s) (tr s).
Definition set_raux (v : option (list Z)) (s : ca) : ca := mkca (st s) (perr s) (ver s) (res s) (rres s) (vfd s) (user s) (svc s) (preq s) (pw s) (r2fa s) (v2fa s) v (chal s) (cert s) (dig s) (rbuf s) (rlen s) (wbuf s) (wlen s) (wpos s) (mt s) (ce s) (celen s) (b1 s) (b2 s) (got s) (auth s) (fin s) (tr s).
Definition set_chal (v : option (list Z)) (s : ca) : ca := mkca (st s) (perr s) (ver s) (res s) (rres s) (vfd s) (user s) (svc s) (preq s) (pw s) (r2fa s) (v2fa s) (raux s) v (cert s) (dig s) (rbuf s) (rlen s) (wbuf s) (wlen s) (wpos s) (mt s) (ce s) (celen s) (b1 s) (b2 s) (got s) (auth s) (fin s) (tr s).
Definition set_cert (v : option (list Z)) (s : ca) : ca := mkca (st s) (perr s) (ver s) (res s) (rres s) (vfd s) (user s) (svc s) (preq s) (pw s) (r2fa s) (v2fa s) (raux s) (chal s) v (dig s) (rbuf s) (rlen s) (wbuf s) (wlen s) (wpos s) (mt s) (ce s) (celen s) (b1 s) (b2 s) (got s) (auth s) (fin s) (tr s).
Definition set_dig (v : Z) (s : ca) : ca := mkca (st s) (perr s) (ver s) (res s) (rres s) (vfd s) (user s) (svc s) (preq s) (pw s) (r2fa s) (v2fa s) (raux s) (chal s) (cert s) v (rbuf s) (rlen s) (wbuf s) (wlen s) (wpos s) (mt s) (ce s) (celen s) (b1 s) (b2 s) (got s) (auth s) (fin s) (tr s).
Definition set_rbuf (v : list Z) (s : ca) : ca := mkca (st s) (perr s) (ver s) (res s) (rres s) (vfd s) (user s) (svc s) (preq s) (pw s) (r2fa s) (v2fa s) (raux s) (chal s) (cert s) (dig s) v (rlen s) (wbuf s) (wlen s) (wpos s) (mt s) (ce s) (celen s) (b1 s) (b2 s) (got s) (auth s) (fin s) (tr s).
Definition set_rlen (v : nat) (s : ca) : ca := mkca (st s) (perr s) (ver s) (res s) (rres s) (vfd s) (user s) (svc s) (preq s) (pw s) (r2fa s) (v2fa s) (raux s) (chal s) (cert s) (dig s) (rbuf s) v (wbuf s) (wlen s) (wpos s) (mt s) (ce s) (celen s) (b1 s) (b2 s) (got s) (auth s) (fin s) (tr s).
Definition set_wbuf (v : list Z) (s : ca) : ca := mkca (st s) (perr s) (ver s) (res s) (rres s) (vfd s) (user s) (svc s) (preq s) (pw s) (r2fa s) (v2fa s) (raux s) (chal s) (cert s) (dig s) (rbuf s) (rlen s) v (wlen s) (wpos s) (mt s) (ce s) (celen s) (b1 s) (b2 s) (got s) (auth s) (fin s) (tr s).
Definition set_wlen (v : nat) (s : ca) : ca := mkca (st s) (perr s) (ver s) (res s) (rres s) (vfd s) (user s) (svc s) (preq s) (pw s) (r2fa s) (v2fa s) (raux s) (chal s) (cert s) (dig s) (rbuf s) (rlen s) (wbuf s) v (wpos s) (mt s) (ce s) (celen s) (b1 s) (b2 s) (got s) (auth s) (fin s) (tr s).
Definition set_wpos (v : nat) (s : ca) : ca := mkca (st s) (perr s) (ver s) (res s) (rres s) (vfd s) (user s) (svc s) (preq s) (pw s) (r2fa s) (v2fa s) (raux s) (chal s) (cert s) (dig s) (rbuf s) (rlen s) (wbuf s) (wlen s) v (mt s) (ce s) (celen s) (b1 s) (b2 s) (got s) (auth s) (fin s) (tr s).
Definition set_mt (v : Z) (s : ca) : ca := mkca (st s) (perr s) (ver s) (res s) (rres s) (vfd s) (user s) (svc s) (preq s) (pw s) (r2fa s) (v2fa s) (raux s) (chal s) (cert s) (dig s) (rbuf s) (rlen s) (wbuf s) (wlen s) (wpos s) v (ce s) (celen s) (b1 s) (b2 s) (got s) (auth s) (fin s) (tr s).
Definition set_ce (v : Z) (s : ca) : ca := mkca (st s) (perr s) (ver s) (res s) (rres s) (vfd s) (user s) (svc s) (preq s) (pw s) (r2fa s) (v2fa s) (raux s) (chal s) (cert s) (dig s) (rbuf s) (rlen s) (wbuf s) (wlen s) (wpos s) (mt s) v (celen s) (b1 s) (b2 s) (got s) (auth s) (fin s) (tr s).
Definition set_celen (v : nat) (s : ca) : ca := mkca (st s) (perr s) (ver s) (res s) (rres s) (vfd s) (user s) (svc s) (preq s) (pw s) (r2fa s) (v2fa s) (raux s) (chal s) (cert s) (dig s) (rbuf s) (rlen s) (wbuf s) (wlen s) (wpos s) (mt s) (ce s) v (b1 s) (b2 s) (got s) (auth s) (fin s) (tr s).
Definition set_b1 (v : bool) (s : ca) : ca := mkca (st s) (perr s) (ver s) (res s) (rres s) (vfd s) (user s) (svc s) (preq s) (pw s) (r2fa s) (v2fa s) (raux s) (chal s) (cert s) (dig s) (rbuf s) (rlen s) (wbuf s) (wlen s) (wpos s) (mt s) (ce s) (celen s) v (b2 s) (got s) (auth s) (fin s) (tr s).
Definition set_b2 (v : bool) (s : ca) : ca := mkca (st s) (perr s) (ver s) (res s) (rres s) (vfd s) (user s) (svc s) (preq s) (pw s) (r2fa s) (v2fa s) (raux s) (chal s) (cert s) (dig s) (rbuf s) (rlen s) (wbuf s) (wlen s) (wpos s) (mt s) (ce s) (celen s) (b1 s) v (got s) (auth s) (fin s) (tr s).
Definition set_got (v : bool) (s : ca) : ca := mkca (st s) (perr s) (ver s) (res s) (rres s) (vfd s) (user s) (svc s) (preq s) (pw s) (r2fa s) (v2fa s) (raux s) (chal s) (cert s) (dig s) (rbuf s) (rlen s) (wbuf s) (wlen s) (wpos s) (mt s) (ce s) (celen s) (b1 s) (b2 s) v (auth s) (fin s) (tr s).
Definition set_auth (v : bool) (s : ca) : ca := mkca (st s) (perr s) (ver s) (res s) (rres s) (vfd s) (user s) (svc s) (preq s) (pw s) (r2fa s) (v2fa s) (raux s) (chal s) (cert s) (dig s) (rbuf s) (rlen s) (wbuf s) (wlen s) (wpos s) (mt s) (ce s) (celen s) (b1 s) (b2 s) (got s) v (fin s) (tr s).
Definition set_fin (v : bool) (s : ca) : ca := mkca (st s) (perr s) (ver s) (res s) (rres s) (vfd s) (user s) (svc s) (preq s) (pw s) (r2fa s) (v2fa s) (raux s) (chal s) (cert s) (dig s) (rbuf s) (rlen s) (wbuf s) (wlen s) (wpos s) (mt s) (ce s) (celen s) (b1 s) (b2 s) (got s) (auth s) v (tr s).
Definition set_tr (v : list ev) (s : ca) : ca := mkca (st s) (perr s) (ver s) (res s) (rres s) (vfd s) (user s) (svc s) (preq s) (pw s) (r2fa s) (v2fa s) (raux s) (chal s) (cert s) (dig s) (rbuf s) (rlen s) (wbuf s) (wlen s) (wpos s) (mt s) (ce s) (celen s) (b1 s) (b2 s) (got s) (auth s) (fin s) v.

Definition log (e : ev) (s : ca) : ca := set_tr (e :: tr s) s.

Section Filter.
Variable C : cfg.
Variable X : ossl.

(** certauth_write, lines 701-711 *)
Definition w_data (d : list Z) (s : ca) : option ca :=
  if (DATA_SIZE <? length d + wlen s)%nat then Some (s |> set_perr GE_TOOBIG)
  else b <- mwrite (wbuf s) (wlen s) d ;; Some (s |> set_wbuf b |> set_wlen (wlen s + length d)%nat).
(** certauth_write_zeros, lines 713-723 *)
Definition w_zeros (n : nat) (s : ca) : option ca := w_data (repeat 0 n) s.
(** certauth_u16_to_buf and certauth_buf_to_u16, lines 725-736 *)
Definition u16b (v : Z) : list Z := [Z.land (Z.shiftr v 8) 255; Z.land v 255].
Definition bu16 (d : list Z) : Z := Z.lor (Z.shiftl (nth 0 d 0) 8) (nth 1 d 0).
(** certauth_write_byte, certauth_write_u16, lines 738-751 *)
Definition w_byte (b : Z) := w_data [b].
Definition w_u16 (v : Z) := w_data (u16b v).

(** an element with its length, as in lines 1231-1233 *)
Definition w_elem (e : Z) (d : list Z) (s : ca) : option ca :=
  s <- w_byte e s ;; s <- w_u16 (Z.of_nat (length d)) s ;; w_data d s.
(** the same left out if there is no data, 1230 and 1235 *)
Definition w_oelem (e : Z) (d : option (list Z)) (s : ca) : option ca :=
  match d with Some (b :: d) => w_elem e (b :: d) s | _ => Some s end.

(** certauth_verify_cert, lines 765-825: returns err *)
Definition verify_cert (A : ans) (c : list Z) (s : ca) : ca * Z :=
  if a_nomem A then (s, GE_NOMEM) else
  let s := s |> log (TStore c (a_store A)) |> log (TPost (a_post A)) in
  let rv := if (a_post A =? GE_NOTSUP)%Z then (if (a_store A =? 0)%Z then 0 else GE_NOTSUP) else a_post A in
  (if rv =? 0 then set_vfd true s else s, rv).

(** certauth_writeleft, lines 753-757; gensiods is unsigned, [None] is a wrapped value, which
    is larger than any length compared with it. *)
Definition writeleft (s : ca) : option nat :=
  if (DATA_SIZE <? wlen s)%nat then None else Some (DATA_SIZE - wlen s)%nat.
Definition left_lt (l : option nat) (n : nat) : bool := match l with None => false | Some l => (l <? n)%nat end.

(** certauth_add_cert, lines 827-849; the caller puts the result into pending_err.
    Simplified: PEM_write_bio_X509 fails if there is too little space. *)
Definition add_cert (c : list Z) (s : ca) : option (ca * Z) :=
  s <- w_byte E_CERTIFICATE s ;;
  let lenpos := wlen s in
  let s := s |> set_wlen (wlen s + 2)%nat in
  if left_lt (writeleft s) (length c) then Some (s, GE_TOOBIG) else
  b <- mwrite (wbuf s) (wlen s) c ;;
  b <- mwrite b lenpos (u16b (Z.of_nat (length c))) ;;
  Some (s |> set_wbuf b |> set_wlen (wlen s + length c)%nat, 0).

(** v3_certauth_add_challenge_rsp and certauth_add_challenge_rsp, lines 881-1009.  Left out: the
    old version refuses ed25519 keys; what is signed. *)
Definition add_rsp (A : ans) (s : ca) : option (ca * Z) :=
  s <- w_byte E_CHALLENGE_RSP s ;;
  let lenpos := wlen s in
  let s := s |> set_wlen (wlen s + 2)%nat in
  let old := (ver s <? 4) || (c_ver C <? 4) in
  if old && left_lt (writeleft s) (a_pksize A) then Some (s, GE_TOOBIG) else
  match a_sign A with
  | None => Some (s, GE_NOMEM)
  | Some sg =>
      if negb old && left_lt (writeleft s) (length sg) then Some (s, GE_TOOBIG) else
      b <- mwrite (wbuf s) (wlen s) sg ;;
      b <- mwrite b lenpos (u16b (Z.of_nat (length sg))) ;;
      Some (s |> set_wbuf b |> set_wlen (wlen s + length sg)%nat, 0)
  end.

(** certauth_get_cert, lines 851-879; allocation failures left out *)
Definition get_cert (d : list Z) (s : ca) : ca * Z :=
  if is_cert X d then (set_cert (Some d) s, 0) else (set_cert None s, GE_NOCERT).

(** v3_certauth_check_challenge and certauth_check_challenge, lines 1011-1139, of the
    signature [sg]; X509_get_pubkey(NULL) gives NULL. *)
Definition oget {A} (x : option (list A)) : list A := match x with Some l => l | None => [] end.
Definition check_challenge (sg : list Z) (s : ca) : ca * Z :=
  let d := oget (chal s) ++ oget (svc s) in
  let old := (ver s <? 4) || (c_ver C <? 4) in
  match cert s with
  | None => (s, GE_NOMEM)
  | Some c =>
      match sig_ok X old (dig s) c d sg with
      | None => (s, GE_NOMEM)
      | Some ok => (s |> log (TSig c d sg ok) |> set_rres (if ok then R_SUCCESS else R_FAILURE), 0)
      end
  end.

(** certauth_add_dummy, lines 1141-1147 *)
Definition add_dummy (n : nat) (s : ca) : option ca :=
  s <- w_byte E_DUMMY_DATA s ;; s <- w_u16 (Z.of_nat n) s ;; w_zeros n s.

(** certauth_send_server_done, lines 1149-1167 *)
Definition send_server_done (s : ca) : option ca :=
  let s := if res s =? 0 then set_res R_FAILURE s else s in
  let r := if c_authfail C then R_SUCCESS else res s in
  let r := if res s =? R_ERR then R_FAILURE else r in
  let s := s |> set_wlen 0%nat |> log (TDone r) in
  s <- w_byte SERVERDONE s ;; s <- w_byte E_RESULT s ;; s <- w_u16 2 s ;; s <- w_u16 r s ;;
  w_byte E_END s.

(** set_digest, lines 1178-1185: 2 is sha3_512, 1 is rsa_md5, 0 is NULL *)
Definition set_digest (s : ca) : ca := set_dig (if (3 <=? ver s) && (3 <=? c_ver C) then 2 else 1) s.

(** Ends of the state machine: the label finish_result, lines 1680-1691; the code after the
    switch, lines 1721-1731 (returns GE_RETRY); out_finish, 1737-1738. *)
Definition finish_result (s : ca) : option (ca * Z) :=
  s <- send_server_done s ;;
  if negb (perr s =? 0) then Some (set_st ERR s, perr s)
  else Some (set_st WAIT_WRITE_DONE s, GE_INPROGRESS).
Definition after_switch (s : ca) : option (ca * Z) := Some (set_got false s, GE_RETRY).
Definition out_finish (s : ca) : option (ca * Z) := Some (s, perr s).

(** case CERTAUTH_CLIENT_START, lines 1219-1239 *)
Definition do_client_start (s : ca) : option (ca * Z) :=
  let s := set_wlen 0%nat s in
  s <- w_byte CLIENTHELLO s ;; s <- w_byte E_VERSION s ;; s <- w_u16 2 s ;; s <- w_u16 (c_ver C) s ;;
  s <- w_oelem E_USERNAME (user s) s ;; s <- w_oelem E_SERVICE (svc s) s ;;
  s <- w_byte E_END s ;;
  after_switch (set_st SERVERHELLO s).

(** case CERTAUTH_CLIENTHELLO, lines 1241-1326, in three parts: checks; the application;
    the answer *)
Definition hello_answer (A : ans) (s : ca) : option (ca * Z) :=
  let s := set_wlen 0%nat s in
  s <- w_byte SERVERHELLO s ;; s <- w_byte E_VERSION s ;; s <- w_u16 2 s ;; s <- w_u16 (c_ver C) s ;;
  s <- w_byte E_CHALLENGE_DATA s ;; s <- w_u16 (Z.of_nat (length (oget (chal s)))) s ;;
  match a_rand A with
  | None => after_switch (set_perr GE_IOERR s)
  | Some r =>
      _ <- guard (length r =? length (oget (chal s)))%nat ;;
      let s := s |> set_chal (Some r) |> log (TRand r) in
      s <- w_data r s ;;
      s <- (if 2 <=? ver s then w_oelem E_AUX_DATA (c_aux C) s else Some s) ;;
      s <- w_byte E_END s ;;
      after_switch (set_st CHALLENGE_RESPONSE s)
  end.
Definition hello_app (A : ans) (s : ca) : option (ca * Z) :=
  let s := log (TBegin (a_begin A)) s in
  if a_begin A =? 0 then hello_answer A (set_res R_SUCCESS s)
  else if a_begin A =? GE_AUTHREJECT then hello_answer A (set_res R_ERR s)
  else if negb (a_begin A =? GE_NOTSUP) then finish_result (set_perr (a_begin A) s)
  else hello_answer A s.
Definition do_clienthello (A : ans) (s : ca) : option (ca * Z) :=
  if ver s =? 0 then after_switch (set_perr GE_DATAMISSING s)
  else if c_2fa C && (ver s <? 2) then after_switch (set_perr GE_INVAL s)
  else
    let s := set_digest s in
    let s := if c_child C then (if auth s then s |> set_res R_SUCCESS |> log TChild else s)
             else set_auth false s in
    hello_app A s.

(** case CERTAUTH_SERVERHELLO, lines 1328-1360; handle_server_done, lines 1704-1711.  The
    random delay is only a timer. *)
Definition handle_server_done (s : ca) : option (ca * Z) :=
  if negb (res s =? R_SUCCESS) then out_finish (set_perr GE_AUTHREJECT s)
  else out_finish (set_st PASSTHROUGH s).
Definition do_serverhello (A : ans) (s : ca) : option (ca * Z) :=
  if negb (res s =? 0) then handle_server_done s
  else match chal s with
  | None => after_switch (set_perr GE_DATAMISSING s)
  | Some _ =>
      if ver s =? 0 then after_switch (set_perr GE_DATAMISSING s)
      else match a_rand A with
      | None => after_switch (set_perr GE_DATAMISSING s)
      | Some _ => Some (s |> set_got false |> set_st CLIENTDELAY, GE_RETRY)
      end
  end.

(** case CERTAUTH_CLIENTDELAY, lines 1362-1405 *)
Definition delay_end (s : ca) : option (ca * Z) :=
  s <- (if 2 <=? ver s then w_oelem E_AUX_DATA (c_aux C) s else Some s) ;;
  s <- w_byte E_END s ;;
  after_switch (set_st PASSWORD_REQUEST s).
Definition delay_rsp (A : ans) (s : ca) : option (ca * Z) :=
  if c_pkey C then
    ' (s, e) <- add_rsp A s ;;
    let s := set_perr e s in
    if negb (e =? 0) then finish_result s else delay_end s
  else s <- add_dummy 256 s ;; delay_end s.
Definition do_clientdelay (A : ans) (was_timeout : bool) (s : ca) : option (ca * Z) :=
  if negb was_timeout then
    (if got s then finish_result (set_perr GE_NOTREADY s) else Some (s, GE_RETRY))
  else
    let s := s |> set_digest |> set_wlen 0%nat in
    s <- w_byte CHALLENGE_RESPONSE s ;;
    match c_cert C with
    | Some c =>
        ' (s, e) <- add_cert c s ;;
        let s := set_perr e s in
        if negb (e =? 0) then finish_result s else delay_rsp A s
    | None => s <- add_dummy (Z.to_nat 1265) s ;; delay_rsp A s
    end.

(** the labels try_password2 and try_password, lines 1481-1497 *)
Definition try_password2 (req : Z) (s : ca) : option (ca * Z) :=
  let req := if c_2fa C then Z.lor req PT_2FA else req in
  let s := set_wlen 0%nat s in
  s <- w_byte PASSWORD_REQUEST s ;; s <- w_byte E_PASSWORD_TYPE s ;; s <- w_u16 2 s ;; s <- w_u16 req s ;;
  s <- w_byte E_END s ;;
  after_switch (set_st PASSWORD s).
Definition try_password (s : ca) : option (ca * Z) :=
  try_password2 (if (res s =? 0) && c_enpw C then PT_REQ else PT_DUMMY) s.

(** case CERTAUTH_CHALLENGE_RESPONSE, lines 1407-1479, in two parts: up to PRECERT_VERIFY,
    and from certauth_verify_cert on *)
Definition rsp_verify (A : ans) (c : list Z) (s : ca) : option (ca * Z) :=
  let '(s, err) := verify_cert A c s in
  if res s =? 0 then
    if negb (err =? GE_AUTHREJECT) && negb (err =? 0) && negb (err =? GE_NOTSUP) then
      finish_result (set_perr err s)
    else
      let s := if err =? GE_AUTHREJECT then set_res R_ERR s else s in
      if vfd s && (rres s =? R_SUCCESS) then
        let s := set_res R_SUCCESS s in
        if c_reqpw C then try_password2 PT_REQ s else try_password s
      else try_password s
  else try_password s.
Definition do_challenge_response (A : ans) (s : ca) : option (ca * Z) :=
  if res s =? R_SUCCESS then try_password s
  else match cert s with
  | None =>
      if negb (c_enpw C) then finish_result (set_perr GE_AUTHREJECT s) else try_password s
  | Some c =>
      if rres s =? 0 then finish_result (set_perr GE_PROTOERR s)
      else if res s =? 0 then
        let s := log (TPre (a_pre A)) s in
        if a_pre A =? 0 then rsp_verify A c (set_res R_SUCCESS s)
        else if a_pre A =? GE_AUTHREJECT then rsp_verify A c (set_res R_ERR s)
        else if negb (a_pre A =? GE_NOTSUP) then finish_result (set_perr (a_pre A) s)
        else rsp_verify A c s
      else rsp_verify A c s
  end.

(** case CERTAUTH_PASSWORD_REQUEST, lines 1499-1604.  A client's password is a buffer of
    PASSWORD_LEN bytes. *)
Definition password_end (s : ca) : option (ca * Z) :=
  s <- w_byte E_END s ;; after_switch (set_st SERVERDONE s).
Definition send_2fa (v : list Z) (asked : bool) (s : ca) : option (ca * Z) :=
  s <- w_byte E_2FA_DATA s ;; s <- w_u16 (Z.of_nat (length v)) s ;; s <- w_data v s ;;
  let s := if asked then set_v2fa None s else s in
  if negb (perr s =? 0) then finish_result s else password_end s.
Definition password_done (A : ans) (s : ca) : option (ca * Z) :=
  match v2fa s with
  | Some v => if ver s <? 2 then finish_result (set_perr GE_INVAL s) else send_2fa v false s
  | None =>
      if negb (r2fa s) then password_end s
      else
        let err := fst (a_get2fa A) in
        if negb (err =? 0) && negb (err =? GE_NOTSUP) then finish_result (set_perr err s)
        else
          let v := match snd (a_get2fa A) with Some v => v | None => [] end in
          if (65535 <? Z.of_nat (length v)) || (Z.of_nat (length v) <? 1)
          then finish_result (set_perr GE_TOOBIG s)
          else send_2fa v true s
  end.
Definition do_password_request (A : ans) (s : ca) : option (ca * Z) :=
  if preq s =? 0 then finish_result (set_perr GE_DATAMISSING s)
  else
    p <- pw s ;;
    let s := set_wlen 0%nat s in
    if negb (preq s =? PT_REQ) then
      s <- w_byte PASSWORD s ;; s <- add_dummy (length p) s ;; password_done A s
    else if negb (c_enpw C) then
      s <- w_byte PASSWORD s ;; s <- w_byte E_PASSWORD_DATA s ;; s <- w_u16 (Z.of_nat (length p)) s ;;
      s <- w_zeros (length p) s ;; password_done A s
    else
      b <- mget p 0 ;;
      if b =? 0 then
        let err := fst (a_getpw A) in
        let z := repeat 0 (length p) in
        if negb (err =? 0) && negb (err =? GE_NOTSUP)
        then finish_result (s |> set_pw (Some z) |> set_perr err)
        else
          let q := if err =? 0 then snd (a_getpw A) else z in
          _ <- guard (length q =? length p)%nat ;;
          s <- w_byte PASSWORD s ;; s <- w_elem E_PASSWORD_DATA q s ;;
          password_done A (set_pw (Some z) s)
      else
        s <- w_byte PASSWORD s ;; s <- w_elem E_PASSWORD_DATA p s ;; password_done A s.

(** case CERTAUTH_PASSWORD, lines 1606-1678: the label check_2fa, then the start *)
Definition check_2fa (A : ans) (s : ca) : option (ca * Z) :=
  let s := s |> log (T2fa (oget (v2fa s)) (a_2fa A)) |> set_v2fa None in
  if a_2fa A =? 0 then finish_result (set_res R_SUCCESS s)
  else if (a_2fa A =? GE_CERTINVALID) || (a_2fa A =? GE_NOTSUP) then finish_result s
  else finish_result (set_perr (a_2fa A) s).
Definition check_pw (A : ans) (p : list Z) (s : ca) : option (ca * Z) :=
  let s := s |> log (TPw p (a_pw A)) |> set_pw (Some (repeat 0 (length p))) in
  let s := if a_pw A =? 0 then set_res R_SUCCESS s
           else if (a_pw A =? GE_CERTINVALID) || (a_pw A =? GE_NOTSUP) then s
           else set_perr (a_pw A) s in
  if negb (c_2fa C) then finish_result s else check_2fa A s.
Definition do_password (A : ans) (s : ca) : option (ca * Z) :=
  if c_2fa C && (match v2fa s with None => true | Some _ => false end)
  then finish_result (set_perr GE_DATAMISSING s)
  else if negb (res s =? 0) && negb (c_reqpw C) then
    if (match v2fa s with None => false | Some _ => true end) && (res s =? R_SUCCESS)
    then check_2fa A (set_res 0 s)
    else finish_result s
  else match pw s with
  | None => if c_enpw C || c_reqpw C then finish_result (set_perr GE_DATAMISSING s) else finish_result s
  | Some p =>
      (* the buffer is one byte longer and zero there, so an empty one starts with 0 *)
      if nth 0 p 0 =? 0 then finish_result s else check_pw A p s
  end.

(** case CERTAUTH_SERVERDONE, lines 1696-1711 *)
Definition do_serverdone (s : ca) : option (ca * Z) :=
  if res s =? 0 then out_finish (set_perr GE_DATAMISSING s) else handle_server_done s.
(** case CERTAUTH_WAIT_WRITE_DONE, lines 1713-1718 *)
Definition do_wait (s : ca) : option (ca * Z) :=
  if (wlen s =? 0)%nat then out_finish (set_st PASSTHROUGH s) else Some (s, GE_RETRY).

(** certauth_try_connect, lines 1187-1750; an assertion for the other states *)
Definition try_connect (A : ans) (was_timeout : bool) (s : ca) : option (ca * Z) :=
  if negb (perr s =? 0) then Some (s, perr s)
  else if negb (got s) && negb was_timeout then Some (s, GE_INPROGRESS)
  else if was_timeout && negb (st s =? CLIENTDELAY) then finish_result (set_perr GE_TIMEDOUT s)
  else if st s =? CLIENT_START then do_client_start s
  else if st s =? CLIENTHELLO then do_clienthello A s
  else if st s =? SERVERHELLO then do_serverhello A s
  else if st s =? CLIENTDELAY then do_clientdelay A was_timeout s
  else if st s =? CHALLENGE_RESPONSE then do_challenge_response A s
  else if st s =? PASSWORD_REQUEST then do_password_request A s
  else if st s =? PASSWORD then do_password A s
  else if st s =? SERVERDONE then do_serverdone s
  else if st s =? WAIT_WRITE_DONE then do_wait s
  else None.

(** certauth_check_open_done, lines 680-699 *)
Definition check_open_done (s : ca) : ca * Z :=
  let s := if res s =? 0 then set_res R_FAILURE s else s in
  if res s =? R_SUCCESS then (set_auth true s, 0)
  else if res s =? R_ERR then (s, GE_AUTHREJECT)
  else if c_client C || negb (c_authfail C) then (s, GE_AUTHREJECT)
  else (s, 0).

(** basen_filter_try_connect, lib/gensio_base.c:1110-1157: what follows a call of try_connect.
    The write between its two calls is a step of its own here. *)
Definition connect (A : ans) (was_timeout : bool) (s : ca) : option ca :=
  if fin s then Some s else
  ' (s, rv) <- try_connect A was_timeout s ;;
  if (rv =? GE_INPROGRESS) || (rv =? GE_RETRY) then Some s
  else if negb (rv =? 0) then Some (s |> set_fin true |> log (TFail rv))
  else let '(s, rv) := check_open_done s in
       Some (s |> set_fin true |> log (TOpen rv (auth s))).

(** certauth_ul_write without data, lines 1774-1792: the lower layer takes up to [n] bytes,
    or gives an error *)
Definition flush (r : Z) (n : nat) (s : ca) : option ca :=
  if (wlen s =? 0)%nat then Some s else
  _ <- guard (wpos s <=? wlen s)%nat ;;
  d <- mread (wbuf s) (wpos s) (wlen s - wpos s) ;;
  if negb (r =? 0) then Some s else
  let n := Nat.min n (length d) in
  let s := log (TPut (firstn n d)) s in
  if (wlen s <=? n + wpos s)%nat then Some (s |> set_wlen 0%nat |> set_wpos 0%nat)
  else Some (set_wpos (wpos s + n)%nat s).

(** limited_strlen, lines 1799-1809: the pointer is not moved *)
Definition limited_strlen (str : list Z) (max : nat) : nat :=
  if (0 <? max)%nat && (nth 0 str 0 =? 0) then 0%nat else max.

(** certauth_handle_new_element, lines 1811-2005, of an element with the data [d] *)
Definition perror (s : ca) : ca := set_perr GE_PROTOERR s.
Definition handle_elem (e : Z) (d : list Z) (s : ca) : ca :=
  let s := log (TElem e d) s in
  if e =? E_VERSION then
    if negb (ver s =? 0) then perror s
    else if negb (length d =? 2)%nat then perror s
    else let s := set_ver (bu16 d) s in if ver s =? 0 then perror s else s
  else if e =? E_USERNAME then
    match user s with Some _ => perror s | None => set_user (Some d) s end
  else if e =? E_SERVICE then
    match svc s with Some _ => perror s | None => set_svc (Some d) s end
  else if e =? E_PASSWORD_TYPE then
    if negb (preq s =? 0) then perror s
    else if negb (length d =? 2)%nat then perror s
    else let v := bu16 d in
         let s := s |> set_r2fa (negb (Z.land v PT_2FA =? 0)) |> set_preq (Z.land v 255) in
         if preq s =? 0 then perror s else s
  else if e =? E_PASSWORD_DATA then
    match pw s with
    | Some _ => perror s
    | None => set_pw (Some (firstn (limited_strlen d (length d)) d)) s
    end
  else if e =? E_2FA_DATA then
    match v2fa s with Some (_ :: _) => perror s | _ => set_v2fa (Some d) s end
  else if e =? E_AUX_DATA then
    match raux s with Some (_ :: _) => perror s | _ => set_raux (Some d) s end
  else if e =? E_CHALLENGE_DATA then
    match chal s with Some _ => perror s | None => set_chal (Some d) s end
  else if e =? E_CHALLENGE_RSP then
    if negb (rres s =? 0) then perror s
    else let '(s, r) := check_challenge d s in set_perr r s
  else if e =? E_CERTIFICATE then
    match cert s with
    | Some _ => perror s
    | None => let '(s, r) := get_cert d s in set_perr r s
    end
  else if e =? E_RESULT then
    if negb (res s =? 0) then perror s
    else if negb (length d =? 2)%nat then perror s
    else let s := set_res (bu16 d) s in if res s =? 0 then perror s else s
  else s.

(** The ends of certauth_ll_write: [Over]: it read past the end of the data it was given.
    [Bad]: it wrote outside read_buf.  [Fuel]: the model's loop ended too early (never happens,
    see Certauth_Proofs).  [Done s rest]: [rest] was not consumed. *)
Inductive lw := Over | Bad | Fuel | Done (s : ca) (rest : list Z).

(** lines 2103-2128: the data of the element; [inl]: goto restart *)
Definition ll_body (s : ca) (buf : list Z) : (ca * list Z) + lw :=
  let left := (celen s - rlen s)%nat in
  if (left <=? length buf)%nat then
    match mwrite (rbuf s) (rlen s) (firstn left buf) with
    | None => inr Bad
    | Some b =>
        let s := s |> set_rbuf b |> set_rlen (rlen s + left)%nat in
        let s := handle_elem (ce s) (firstn (celen s) (rbuf s)) s in
        inl (s |> set_ce 0 |> set_b1 false |> set_b2 false |> set_rlen 0%nat, skipn left buf)
    end
  else
    match mwrite (rbuf s) (rlen s) buf with
    | None => inr Bad
    | Some b => inr (Done (s |> set_rbuf b |> set_rlen (rlen s + length buf)%nat) [])
    end.

(** lines 2088-2102: second byte of the length *)
Definition ll_len2 (s : ca) (buf : list Z) : (ca * list Z) + lw :=
  match buf with
  | [] => inr (Done s [])
  | x :: buf' =>
      if b2 s then ll_body s buf
      else
        let s := s |> set_b2 true |> set_celen (Z.to_nat (Z.lor (Z.of_nat (celen s)) x)) in
        if (celen s =? 0)%nat || (DATA_SIZE <? celen s)%nat then inr (Done (perror s) buf)
        else ll_body s buf'
  end.

(** lines 2079-2087: first byte of the length *)
Definition ll_len1 (s : ca) (buf : list Z) : (ca * list Z) + lw :=
  match buf with
  | [] => inr (Done s [])
  | x :: buf' =>
      if b1 s then ll_len2 s buf
      else ll_len2 (s |> set_b1 true |> set_celen (Z.to_nat (Z.shiftl x 8))) buf'
  end.

(** lines 2061-2078, from the label restart *)
Definition ll_elem (s : ca) (buf : list Z) : (ca * list Z) + lw :=
  if ce s =? 0 then
    match buf with
    | [] => inr Over
    | x :: buf =>
        let s := set_ce x s in
        if x =? E_END then inr (Done (s |> set_mt 0 |> set_got true) buf)
        else if (MAX_ELEMENT <? x) || (x <? MIN_ELEMENT) then inr (Done (perror s) buf)
        else ll_len1 s buf
    end
  else ll_len1 s buf.

Fixpoint ll_loop (fuel : nat) (s : ca) (buf : list Z) : lw :=
  match fuel with
  | O => Fuel
  | S fuel => match ll_elem s buf with inr r => r | inl (s, buf) => ll_loop fuel s buf end
  end.

(** certauth_ll_write, lines 2007-2139, before passthrough.  The return value is pending_err. *)
Definition ll_msg (s : ca) (buf : list Z) : lw :=
  match buf with
  | [] => Done s []
  | x :: buf' =>
      if negb (perr s =? 0) then Done s buf
      else if mt s =? 0 then
        let s := set_mt x s in
        if STATE_MAX <? x then Done (perror s) buf'
        else
          let s := s |> set_ce 0 |> set_b1 false |> set_b2 false |> set_rlen 0%nat in
          if c_client C && (x =? SERVERDONE) then
            let s := set_st SERVERDONE s in
            match buf' with [] => Done s [] | _ => ll_loop (S (S (length buf'))) s buf' end
          else if negb (x =? st s) then Done (perror s) buf'
          else match buf' with [] => Done s [] | _ => ll_loop (S (S (length buf'))) s buf' end
      else ll_loop (S (S (length buf))) s buf
  end.
(** in passthrough, 2021-2029: the user takes [n] bytes *)
Definition ll_write (s : ca) (buf : list Z) (n : nat) : lw :=
  if st s =? PASSTHROUGH then
    match buf with
    | [] => Done s []
    | _ => Done (log (TRead (firstn n buf)) s) (skipn n buf)
    end
  else ll_msg s buf.

(** certauth_cleanup, lines 2155-2212, by a close; the gensio may then be opened again *)
Definition cleanup (s : ca) : ca :=
  let s := if c_client C
           then s |> set_chal None |> set_pw (match pw s with Some p => Some (repeat 0 (length p)) | None => None end)
           else s |> set_cert None |> set_pw None |> set_user None |> set_svc None in
  s |> set_v2fa None |> set_raux None |> set_perr 0 |> set_preq 0 |> set_rlen 0%nat |> set_wlen 0%nat |> set_wpos 0%nat
    |> set_ver 0 |> set_res 0 |> set_rres 0 |> set_vfd false |> set_fin false.

(** gensio_certauth_filter_raw_alloc, lines 2564-2696.  [u], [v]: user name and service given
    (a client), [p]: its password buffer, [f]: its second factor; [a]: the child is authenticated. *)
Definition alloc (u v : option (list Z)) (p : list Z) (f : option (list Z)) (a : bool) : ca :=
  let z := repeat 0 DATA_SIZE in
  mkca (if c_client C then CLIENT_START else CLIENTHELLO) 0 0 0 0 false u v 0
       (if c_client C then Some p else None) false (if c_client C then f else None)
       None (if c_client C then None else Some (repeat 0 CHALLENGE_SIZE))
       (if c_client C then c_cert C else None) 0
       z 0%nat z 0%nat 0%nat 0 0 0%nat false false (c_client C) a false [].

(** What happens to a filter, in any order: base calls try_connect, bytes come, bytes are
    written.  [None]: undefined behaviour. *)
Inductive event := EConn (A : ans) (was_timeout : bool) | ERecv (buf : list Z) (n : nat) | EFlush (r : Z) (n : nat).
Definition step (e : event) (s : ca) : option ca :=
  match e with
  | EConn A t => connect A t s
  | ERecv buf n => match ll_write s buf n with Done s _ => Some s | _ => None end
  | EFlush r n => flush r n s
  end.
Fixpoint run (l : list event) (s : ca) : option ca :=
  match l with [] => Some s | e :: l => s <- step e s ;; run l s end.

End Filter.
