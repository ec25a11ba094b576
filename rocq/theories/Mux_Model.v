(** Model of one end of a mux, lib/gensio_mux.c, with any number of channels: opening
    and closing them, the messages, sending and receiving.

    Left out: callbacks are taken to do nothing but give their answer (calls of the user
    made inside a callback or by other threads come before or after it; so the
    in_newchannel logic of muxc_write and muxc_close is not there), the WRITE_READY
    callback is taken to disable itself, opening and closing the child is taken to be
    started without error, errors of the child come by its READ callback, allocation
    failures, controls, GENSIO_FUNC_DISABLE. *)
From Verif Require Import Base Heap_Model Muxchan_Model.
Open Scope nat_scope.

(** gensio_err.h *)
Definition GE_NOTSUP : Z := 2.
Definition GE_INUSE : Z := 10.
Definition GE_NOTREADY : Z := 12.
Definition GE_REMCLOSE : Z := 26.
Definition GE_PROTOERR : Z := 23.
Definition GE_LOCALCLOSED : Z := 35.

(** enum mux_inst_state, lines 167-206, enum mux_state, lines 358-398 *)
Inductive cst := CClosed | CPending | CInOpen | COpen | CInOpenClose | CInClose | CInRemClose | CFinal.
Inductive mst := MClosed | MWaitChild | MUninit | MWaitOpen | MInOpen | MOpen | MInClose.
Definition cst_eqb (a b : cst) : bool :=
  match a, b with CClosed, CClosed | CPending, CPending | CInOpen, CInOpen | COpen, COpen | CInOpenClose, CInOpenClose | CInClose, CInClose | CInRemClose, CInRemClose | CFinal, CFinal => true | _, _ => false end.
Definition mst_eqb (a b : mst) : bool :=
  match a, b with MClosed, MClosed | MWaitChild, MWaitChild | MUninit, MUninit | MWaitOpen, MWaitOpen | MInOpen, MInOpen | MOpen, MOpen | MInClose, MInClose => true | _, _ => false end.

(** struct mux_inst, lines 208-265; the fields for data are in [c_d].  [c_live]: the memory
    is allocated; [c_own]: the user has it. *)
Record chan := mkch { c_live : bool; c_own : bool; c_ref : nat; c_id : nat; c_st : cst; c_snew : bool; c_sclose : bool; c_csent : bool; c_svc : list Z; c_wen : bool; c_defer : bool; c_odone : bool; c_cdone : bool; c_ccalled : bool; c_wready : bool; c_inwr : bool; c_inopen : bool; c_d : dch }.
Definition u_c_live (v : bool) (x : chan) : chan := mkch v (c_own x) (c_ref x) (c_id x) (c_st x) (c_snew x) (c_sclose x) (c_csent x) (c_svc x) (c_wen x) (c_defer x) (c_odone x) (c_cdone x) (c_ccalled x) (c_wready x) (c_inwr x) (c_inopen x) (c_d x).
Definition u_c_own (v : bool) (x : chan) : chan := mkch (c_live x) v (c_ref x) (c_id x) (c_st x) (c_snew x) (c_sclose x) (c_csent x) (c_svc x) (c_wen x) (c_defer x) (c_odone x) (c_cdone x) (c_ccalled x) (c_wready x) (c_inwr x) (c_inopen x) (c_d x).
Definition u_c_ref (v : nat) (x : chan) : chan := mkch (c_live x) (c_own x) v (c_id x) (c_st x) (c_snew x) (c_sclose x) (c_csent x) (c_svc x) (c_wen x) (c_defer x) (c_odone x) (c_cdone x) (c_ccalled x) (c_wready x) (c_inwr x) (c_inopen x) (c_d x).
Definition u_c_id (v : nat) (x : chan) : chan := mkch (c_live x) (c_own x) (c_ref x) v (c_st x) (c_snew x) (c_sclose x) (c_csent x) (c_svc x) (c_wen x) (c_defer x) (c_odone x) (c_cdone x) (c_ccalled x) (c_wready x) (c_inwr x) (c_inopen x) (c_d x).
Definition u_c_st (v : cst) (x : chan) : chan := mkch (c_live x) (c_own x) (c_ref x) (c_id x) v (c_snew x) (c_sclose x) (c_csent x) (c_svc x) (c_wen x) (c_defer x) (c_odone x) (c_cdone x) (c_ccalled x) (c_wready x) (c_inwr x) (c_inopen x) (c_d x).
Definition u_c_snew (v : bool) (x : chan) : chan := mkch (c_live x) (c_own x) (c_ref x) (c_id x) (c_st x) v (c_sclose x) (c_csent x) (c_svc x) (c_wen x) (c_defer x) (c_odone x) (c_cdone x) (c_ccalled x) (c_wready x) (c_inwr x) (c_inopen x) (c_d x).
Definition u_c_sclose (v : bool) (x : chan) : chan := mkch (c_live x) (c_own x) (c_ref x) (c_id x) (c_st x) (c_snew x) v (c_csent x) (c_svc x) (c_wen x) (c_defer x) (c_odone x) (c_cdone x) (c_ccalled x) (c_wready x) (c_inwr x) (c_inopen x) (c_d x).
Definition u_c_csent (v : bool) (x : chan) : chan := mkch (c_live x) (c_own x) (c_ref x) (c_id x) (c_st x) (c_snew x) (c_sclose x) v (c_svc x) (c_wen x) (c_defer x) (c_odone x) (c_cdone x) (c_ccalled x) (c_wready x) (c_inwr x) (c_inopen x) (c_d x).
Definition u_c_svc (v : list Z) (x : chan) : chan := mkch (c_live x) (c_own x) (c_ref x) (c_id x) (c_st x) (c_snew x) (c_sclose x) (c_csent x) v (c_wen x) (c_defer x) (c_odone x) (c_cdone x) (c_ccalled x) (c_wready x) (c_inwr x) (c_inopen x) (c_d x).
Definition u_c_wen (v : bool) (x : chan) : chan := mkch (c_live x) (c_own x) (c_ref x) (c_id x) (c_st x) (c_snew x) (c_sclose x) (c_csent x) (c_svc x) v (c_defer x) (c_odone x) (c_cdone x) (c_ccalled x) (c_wready x) (c_inwr x) (c_inopen x) (c_d x).
Definition u_c_defer (v : bool) (x : chan) : chan := mkch (c_live x) (c_own x) (c_ref x) (c_id x) (c_st x) (c_snew x) (c_sclose x) (c_csent x) (c_svc x) (c_wen x) v (c_odone x) (c_cdone x) (c_ccalled x) (c_wready x) (c_inwr x) (c_inopen x) (c_d x).
Definition u_c_odone (v : bool) (x : chan) : chan := mkch (c_live x) (c_own x) (c_ref x) (c_id x) (c_st x) (c_snew x) (c_sclose x) (c_csent x) (c_svc x) (c_wen x) (c_defer x) v (c_cdone x) (c_ccalled x) (c_wready x) (c_inwr x) (c_inopen x) (c_d x).
Definition u_c_cdone (v : bool) (x : chan) : chan := mkch (c_live x) (c_own x) (c_ref x) (c_id x) (c_st x) (c_snew x) (c_sclose x) (c_csent x) (c_svc x) (c_wen x) (c_defer x) (c_odone x) v (c_ccalled x) (c_wready x) (c_inwr x) (c_inopen x) (c_d x).
Definition u_c_ccalled (v : bool) (x : chan) : chan := mkch (c_live x) (c_own x) (c_ref x) (c_id x) (c_st x) (c_snew x) (c_sclose x) (c_csent x) (c_svc x) (c_wen x) (c_defer x) (c_odone x) (c_cdone x) v (c_wready x) (c_inwr x) (c_inopen x) (c_d x).
Definition u_c_wready (v : bool) (x : chan) : chan := mkch (c_live x) (c_own x) (c_ref x) (c_id x) (c_st x) (c_snew x) (c_sclose x) (c_csent x) (c_svc x) (c_wen x) (c_defer x) (c_odone x) (c_cdone x) (c_ccalled x) v (c_inwr x) (c_inopen x) (c_d x).
Definition u_c_inwr (v : bool) (x : chan) : chan := mkch (c_live x) (c_own x) (c_ref x) (c_id x) (c_st x) (c_snew x) (c_sclose x) (c_csent x) (c_svc x) (c_wen x) (c_defer x) (c_odone x) (c_cdone x) (c_ccalled x) (c_wready x) v (c_inopen x) (c_d x).
Definition u_c_inopen (v : bool) (x : chan) : chan := mkch (c_live x) (c_own x) (c_ref x) (c_id x) (c_st x) (c_snew x) (c_sclose x) (c_csent x) (c_svc x) (c_wen x) (c_defer x) (c_odone x) (c_cdone x) (c_ccalled x) (c_wready x) (c_inwr x) v (c_d x).
Definition u_c_d (v : dch) (x : chan) : chan := mkch (c_live x) (c_own x) (c_ref x) (c_id x) (c_st x) (c_snew x) (c_sclose x) (c_csent x) (c_svc x) (c_wen x) (c_defer x) (c_odone x) (c_cdone x) (c_ccalled x) (c_wready x) (c_inwr x) (c_inopen x) v.

(** What can be seen: callbacks, results of calls, the child being closed, memory of a
    channel given back *)
Inductive mob := OOpenDone (h : nat) (e : Z) | OAccOpen (e : Z) | OCloseDone (h : nat) | ORead (h : nat) (r : rob) | OWReady (h : nat)
  | ONewChan (h : nat) (svc : list Z) (e : Z) | OChildClose | OFreed (h : nat)
  | OWrite (h : nat) (l : list Z) (eom oob : bool) (n : nat) (e : Z) | OOpen (h : nat) (e : Z) | OClose (h : nat) (e : Z).

(** struct mux_data, lines 412-505.  Channels are named by numbers, never used again.
    [m_xmit]: the part of xmit_data still to be sent.  [m_normal]: do_normal_close_chan,
    if do_normal_close is set.  [m_wen], [m_ren]: callbacks of the child enabled.
    [m_closing]: the child is being closed, for the channel or for an error.  [m_out]:
    what the child took.  [m_ora]: what callbacks and the child do, from [m_k] on. *)
Record mux := mkmx { m_st : mst; m_ch : nat -> chan; m_chans : list nat; m_wr : list nat; m_open : list nat; m_ocount : nat; m_nclosed : nat; m_client : bool; m_maxch : nat; m_maxr : nat; m_maxw : nat; m_xmit : list Z; m_sending : option nat; m_errshut : bool; m_inhdr : bool; m_hdr : list Z; m_hpos : nat; m_hsize : nat; m_msgid : Z; m_dpos : nat; m_dsize : nat; m_curr : option nat; m_last : nat; m_xerr : Z; m_xst : mst; m_normal : option nat; m_acc : bool; m_wen : bool; m_ren : bool; m_closing : option (option nat); m_out : list Z; m_next : nat; m_ora : nat -> ans; m_k : nat; m_tr : list mob }.
Definition u_m_st (v : mst) (x : mux) : mux := mkmx v (m_ch x) (m_chans x) (m_wr x) (m_open x) (m_ocount x) (m_nclosed x) (m_client x) (m_maxch x) (m_maxr x) (m_maxw x) (m_xmit x) (m_sending x) (m_errshut x) (m_inhdr x) (m_hdr x) (m_hpos x) (m_hsize x) (m_msgid x) (m_dpos x) (m_dsize x) (m_curr x) (m_last x) (m_xerr x) (m_xst x) (m_normal x) (m_acc x) (m_wen x) (m_ren x) (m_closing x) (m_out x) (m_next x) (m_ora x) (m_k x) (m_tr x).
Definition u_m_ch (v : nat -> chan) (x : mux) : mux := mkmx (m_st x) v (m_chans x) (m_wr x) (m_open x) (m_ocount x) (m_nclosed x) (m_client x) (m_maxch x) (m_maxr x) (m_maxw x) (m_xmit x) (m_sending x) (m_errshut x) (m_inhdr x) (m_hdr x) (m_hpos x) (m_hsize x) (m_msgid x) (m_dpos x) (m_dsize x) (m_curr x) (m_last x) (m_xerr x) (m_xst x) (m_normal x) (m_acc x) (m_wen x) (m_ren x) (m_closing x) (m_out x) (m_next x) (m_ora x) (m_k x) (m_tr x).
Definition u_m_chans (v : list nat) (x : mux) : mux := mkmx (m_st x) (m_ch x) v (m_wr x) (m_open x) (m_ocount x) (m_nclosed x) (m_client x) (m_maxch x) (m_maxr x) (m_maxw x) (m_xmit x) (m_sending x) (m_errshut x) (m_inhdr x) (m_hdr x) (m_hpos x) (m_hsize x) (m_msgid x) (m_dpos x) (m_dsize x) (m_curr x) (m_last x) (m_xerr x) (m_xst x) (m_normal x) (m_acc x) (m_wen x) (m_ren x) (m_closing x) (m_out x) (m_next x) (m_ora x) (m_k x) (m_tr x).
Definition u_m_wr (v : list nat) (x : mux) : mux := mkmx (m_st x) (m_ch x) (m_chans x) v (m_open x) (m_ocount x) (m_nclosed x) (m_client x) (m_maxch x) (m_maxr x) (m_maxw x) (m_xmit x) (m_sending x) (m_errshut x) (m_inhdr x) (m_hdr x) (m_hpos x) (m_hsize x) (m_msgid x) (m_dpos x) (m_dsize x) (m_curr x) (m_last x) (m_xerr x) (m_xst x) (m_normal x) (m_acc x) (m_wen x) (m_ren x) (m_closing x) (m_out x) (m_next x) (m_ora x) (m_k x) (m_tr x).
Definition u_m_open (v : list nat) (x : mux) : mux := mkmx (m_st x) (m_ch x) (m_chans x) (m_wr x) v (m_ocount x) (m_nclosed x) (m_client x) (m_maxch x) (m_maxr x) (m_maxw x) (m_xmit x) (m_sending x) (m_errshut x) (m_inhdr x) (m_hdr x) (m_hpos x) (m_hsize x) (m_msgid x) (m_dpos x) (m_dsize x) (m_curr x) (m_last x) (m_xerr x) (m_xst x) (m_normal x) (m_acc x) (m_wen x) (m_ren x) (m_closing x) (m_out x) (m_next x) (m_ora x) (m_k x) (m_tr x).
Definition u_m_ocount (v : nat) (x : mux) : mux := mkmx (m_st x) (m_ch x) (m_chans x) (m_wr x) (m_open x) v (m_nclosed x) (m_client x) (m_maxch x) (m_maxr x) (m_maxw x) (m_xmit x) (m_sending x) (m_errshut x) (m_inhdr x) (m_hdr x) (m_hpos x) (m_hsize x) (m_msgid x) (m_dpos x) (m_dsize x) (m_curr x) (m_last x) (m_xerr x) (m_xst x) (m_normal x) (m_acc x) (m_wen x) (m_ren x) (m_closing x) (m_out x) (m_next x) (m_ora x) (m_k x) (m_tr x).
Definition u_m_nclosed (v : nat) (x : mux) : mux := mkmx (m_st x) (m_ch x) (m_chans x) (m_wr x) (m_open x) (m_ocount x) v (m_client x) (m_maxch x) (m_maxr x) (m_maxw x) (m_xmit x) (m_sending x) (m_errshut x) (m_inhdr x) (m_hdr x) (m_hpos x) (m_hsize x) (m_msgid x) (m_dpos x) (m_dsize x) (m_curr x) (m_last x) (m_xerr x) (m_xst x) (m_normal x) (m_acc x) (m_wen x) (m_ren x) (m_closing x) (m_out x) (m_next x) (m_ora x) (m_k x) (m_tr x).
Definition u_m_client (v : bool) (x : mux) : mux := mkmx (m_st x) (m_ch x) (m_chans x) (m_wr x) (m_open x) (m_ocount x) (m_nclosed x) v (m_maxch x) (m_maxr x) (m_maxw x) (m_xmit x) (m_sending x) (m_errshut x) (m_inhdr x) (m_hdr x) (m_hpos x) (m_hsize x) (m_msgid x) (m_dpos x) (m_dsize x) (m_curr x) (m_last x) (m_xerr x) (m_xst x) (m_normal x) (m_acc x) (m_wen x) (m_ren x) (m_closing x) (m_out x) (m_next x) (m_ora x) (m_k x) (m_tr x).
Definition u_m_maxch (v : nat) (x : mux) : mux := mkmx (m_st x) (m_ch x) (m_chans x) (m_wr x) (m_open x) (m_ocount x) (m_nclosed x) (m_client x) v (m_maxr x) (m_maxw x) (m_xmit x) (m_sending x) (m_errshut x) (m_inhdr x) (m_hdr x) (m_hpos x) (m_hsize x) (m_msgid x) (m_dpos x) (m_dsize x) (m_curr x) (m_last x) (m_xerr x) (m_xst x) (m_normal x) (m_acc x) (m_wen x) (m_ren x) (m_closing x) (m_out x) (m_next x) (m_ora x) (m_k x) (m_tr x).
Definition u_m_maxr (v : nat) (x : mux) : mux := mkmx (m_st x) (m_ch x) (m_chans x) (m_wr x) (m_open x) (m_ocount x) (m_nclosed x) (m_client x) (m_maxch x) v (m_maxw x) (m_xmit x) (m_sending x) (m_errshut x) (m_inhdr x) (m_hdr x) (m_hpos x) (m_hsize x) (m_msgid x) (m_dpos x) (m_dsize x) (m_curr x) (m_last x) (m_xerr x) (m_xst x) (m_normal x) (m_acc x) (m_wen x) (m_ren x) (m_closing x) (m_out x) (m_next x) (m_ora x) (m_k x) (m_tr x).
Definition u_m_maxw (v : nat) (x : mux) : mux := mkmx (m_st x) (m_ch x) (m_chans x) (m_wr x) (m_open x) (m_ocount x) (m_nclosed x) (m_client x) (m_maxch x) (m_maxr x) v (m_xmit x) (m_sending x) (m_errshut x) (m_inhdr x) (m_hdr x) (m_hpos x) (m_hsize x) (m_msgid x) (m_dpos x) (m_dsize x) (m_curr x) (m_last x) (m_xerr x) (m_xst x) (m_normal x) (m_acc x) (m_wen x) (m_ren x) (m_closing x) (m_out x) (m_next x) (m_ora x) (m_k x) (m_tr x).
Definition u_m_xmit (v : list Z) (x : mux) : mux := mkmx (m_st x) (m_ch x) (m_chans x) (m_wr x) (m_open x) (m_ocount x) (m_nclosed x) (m_client x) (m_maxch x) (m_maxr x) (m_maxw x) v (m_sending x) (m_errshut x) (m_inhdr x) (m_hdr x) (m_hpos x) (m_hsize x) (m_msgid x) (m_dpos x) (m_dsize x) (m_curr x) (m_last x) (m_xerr x) (m_xst x) (m_normal x) (m_acc x) (m_wen x) (m_ren x) (m_closing x) (m_out x) (m_next x) (m_ora x) (m_k x) (m_tr x).
Definition u_m_sending (v : option nat) (x : mux) : mux := mkmx (m_st x) (m_ch x) (m_chans x) (m_wr x) (m_open x) (m_ocount x) (m_nclosed x) (m_client x) (m_maxch x) (m_maxr x) (m_maxw x) (m_xmit x) v (m_errshut x) (m_inhdr x) (m_hdr x) (m_hpos x) (m_hsize x) (m_msgid x) (m_dpos x) (m_dsize x) (m_curr x) (m_last x) (m_xerr x) (m_xst x) (m_normal x) (m_acc x) (m_wen x) (m_ren x) (m_closing x) (m_out x) (m_next x) (m_ora x) (m_k x) (m_tr x).
Definition u_m_errshut (v : bool) (x : mux) : mux := mkmx (m_st x) (m_ch x) (m_chans x) (m_wr x) (m_open x) (m_ocount x) (m_nclosed x) (m_client x) (m_maxch x) (m_maxr x) (m_maxw x) (m_xmit x) (m_sending x) v (m_inhdr x) (m_hdr x) (m_hpos x) (m_hsize x) (m_msgid x) (m_dpos x) (m_dsize x) (m_curr x) (m_last x) (m_xerr x) (m_xst x) (m_normal x) (m_acc x) (m_wen x) (m_ren x) (m_closing x) (m_out x) (m_next x) (m_ora x) (m_k x) (m_tr x).
Definition u_m_inhdr (v : bool) (x : mux) : mux := mkmx (m_st x) (m_ch x) (m_chans x) (m_wr x) (m_open x) (m_ocount x) (m_nclosed x) (m_client x) (m_maxch x) (m_maxr x) (m_maxw x) (m_xmit x) (m_sending x) (m_errshut x) v (m_hdr x) (m_hpos x) (m_hsize x) (m_msgid x) (m_dpos x) (m_dsize x) (m_curr x) (m_last x) (m_xerr x) (m_xst x) (m_normal x) (m_acc x) (m_wen x) (m_ren x) (m_closing x) (m_out x) (m_next x) (m_ora x) (m_k x) (m_tr x).
Definition u_m_hdr (v : list Z) (x : mux) : mux := mkmx (m_st x) (m_ch x) (m_chans x) (m_wr x) (m_open x) (m_ocount x) (m_nclosed x) (m_client x) (m_maxch x) (m_maxr x) (m_maxw x) (m_xmit x) (m_sending x) (m_errshut x) (m_inhdr x) v (m_hpos x) (m_hsize x) (m_msgid x) (m_dpos x) (m_dsize x) (m_curr x) (m_last x) (m_xerr x) (m_xst x) (m_normal x) (m_acc x) (m_wen x) (m_ren x) (m_closing x) (m_out x) (m_next x) (m_ora x) (m_k x) (m_tr x).
Definition u_m_hpos (v : nat) (x : mux) : mux := mkmx (m_st x) (m_ch x) (m_chans x) (m_wr x) (m_open x) (m_ocount x) (m_nclosed x) (m_client x) (m_maxch x) (m_maxr x) (m_maxw x) (m_xmit x) (m_sending x) (m_errshut x) (m_inhdr x) (m_hdr x) v (m_hsize x) (m_msgid x) (m_dpos x) (m_dsize x) (m_curr x) (m_last x) (m_xerr x) (m_xst x) (m_normal x) (m_acc x) (m_wen x) (m_ren x) (m_closing x) (m_out x) (m_next x) (m_ora x) (m_k x) (m_tr x).
Definition u_m_hsize (v : nat) (x : mux) : mux := mkmx (m_st x) (m_ch x) (m_chans x) (m_wr x) (m_open x) (m_ocount x) (m_nclosed x) (m_client x) (m_maxch x) (m_maxr x) (m_maxw x) (m_xmit x) (m_sending x) (m_errshut x) (m_inhdr x) (m_hdr x) (m_hpos x) v (m_msgid x) (m_dpos x) (m_dsize x) (m_curr x) (m_last x) (m_xerr x) (m_xst x) (m_normal x) (m_acc x) (m_wen x) (m_ren x) (m_closing x) (m_out x) (m_next x) (m_ora x) (m_k x) (m_tr x).
Definition u_m_msgid (v : Z) (x : mux) : mux := mkmx (m_st x) (m_ch x) (m_chans x) (m_wr x) (m_open x) (m_ocount x) (m_nclosed x) (m_client x) (m_maxch x) (m_maxr x) (m_maxw x) (m_xmit x) (m_sending x) (m_errshut x) (m_inhdr x) (m_hdr x) (m_hpos x) (m_hsize x) v (m_dpos x) (m_dsize x) (m_curr x) (m_last x) (m_xerr x) (m_xst x) (m_normal x) (m_acc x) (m_wen x) (m_ren x) (m_closing x) (m_out x) (m_next x) (m_ora x) (m_k x) (m_tr x).
Definition u_m_dpos (v : nat) (x : mux) : mux := mkmx (m_st x) (m_ch x) (m_chans x) (m_wr x) (m_open x) (m_ocount x) (m_nclosed x) (m_client x) (m_maxch x) (m_maxr x) (m_maxw x) (m_xmit x) (m_sending x) (m_errshut x) (m_inhdr x) (m_hdr x) (m_hpos x) (m_hsize x) (m_msgid x) v (m_dsize x) (m_curr x) (m_last x) (m_xerr x) (m_xst x) (m_normal x) (m_acc x) (m_wen x) (m_ren x) (m_closing x) (m_out x) (m_next x) (m_ora x) (m_k x) (m_tr x).
Definition u_m_dsize (v : nat) (x : mux) : mux := mkmx (m_st x) (m_ch x) (m_chans x) (m_wr x) (m_open x) (m_ocount x) (m_nclosed x) (m_client x) (m_maxch x) (m_maxr x) (m_maxw x) (m_xmit x) (m_sending x) (m_errshut x) (m_inhdr x) (m_hdr x) (m_hpos x) (m_hsize x) (m_msgid x) (m_dpos x) v (m_curr x) (m_last x) (m_xerr x) (m_xst x) (m_normal x) (m_acc x) (m_wen x) (m_ren x) (m_closing x) (m_out x) (m_next x) (m_ora x) (m_k x) (m_tr x).
Definition u_m_curr (v : option nat) (x : mux) : mux := mkmx (m_st x) (m_ch x) (m_chans x) (m_wr x) (m_open x) (m_ocount x) (m_nclosed x) (m_client x) (m_maxch x) (m_maxr x) (m_maxw x) (m_xmit x) (m_sending x) (m_errshut x) (m_inhdr x) (m_hdr x) (m_hpos x) (m_hsize x) (m_msgid x) (m_dpos x) (m_dsize x) v (m_last x) (m_xerr x) (m_xst x) (m_normal x) (m_acc x) (m_wen x) (m_ren x) (m_closing x) (m_out x) (m_next x) (m_ora x) (m_k x) (m_tr x).
Definition u_m_last (v : nat) (x : mux) : mux := mkmx (m_st x) (m_ch x) (m_chans x) (m_wr x) (m_open x) (m_ocount x) (m_nclosed x) (m_client x) (m_maxch x) (m_maxr x) (m_maxw x) (m_xmit x) (m_sending x) (m_errshut x) (m_inhdr x) (m_hdr x) (m_hpos x) (m_hsize x) (m_msgid x) (m_dpos x) (m_dsize x) (m_curr x) v (m_xerr x) (m_xst x) (m_normal x) (m_acc x) (m_wen x) (m_ren x) (m_closing x) (m_out x) (m_next x) (m_ora x) (m_k x) (m_tr x).
Definition u_m_xerr (v : Z) (x : mux) : mux := mkmx (m_st x) (m_ch x) (m_chans x) (m_wr x) (m_open x) (m_ocount x) (m_nclosed x) (m_client x) (m_maxch x) (m_maxr x) (m_maxw x) (m_xmit x) (m_sending x) (m_errshut x) (m_inhdr x) (m_hdr x) (m_hpos x) (m_hsize x) (m_msgid x) (m_dpos x) (m_dsize x) (m_curr x) (m_last x) v (m_xst x) (m_normal x) (m_acc x) (m_wen x) (m_ren x) (m_closing x) (m_out x) (m_next x) (m_ora x) (m_k x) (m_tr x).
Definition u_m_xst (v : mst) (x : mux) : mux := mkmx (m_st x) (m_ch x) (m_chans x) (m_wr x) (m_open x) (m_ocount x) (m_nclosed x) (m_client x) (m_maxch x) (m_maxr x) (m_maxw x) (m_xmit x) (m_sending x) (m_errshut x) (m_inhdr x) (m_hdr x) (m_hpos x) (m_hsize x) (m_msgid x) (m_dpos x) (m_dsize x) (m_curr x) (m_last x) (m_xerr x) v (m_normal x) (m_acc x) (m_wen x) (m_ren x) (m_closing x) (m_out x) (m_next x) (m_ora x) (m_k x) (m_tr x).
Definition u_m_normal (v : option nat) (x : mux) : mux := mkmx (m_st x) (m_ch x) (m_chans x) (m_wr x) (m_open x) (m_ocount x) (m_nclosed x) (m_client x) (m_maxch x) (m_maxr x) (m_maxw x) (m_xmit x) (m_sending x) (m_errshut x) (m_inhdr x) (m_hdr x) (m_hpos x) (m_hsize x) (m_msgid x) (m_dpos x) (m_dsize x) (m_curr x) (m_last x) (m_xerr x) (m_xst x) v (m_acc x) (m_wen x) (m_ren x) (m_closing x) (m_out x) (m_next x) (m_ora x) (m_k x) (m_tr x).
Definition u_m_acc (v : bool) (x : mux) : mux := mkmx (m_st x) (m_ch x) (m_chans x) (m_wr x) (m_open x) (m_ocount x) (m_nclosed x) (m_client x) (m_maxch x) (m_maxr x) (m_maxw x) (m_xmit x) (m_sending x) (m_errshut x) (m_inhdr x) (m_hdr x) (m_hpos x) (m_hsize x) (m_msgid x) (m_dpos x) (m_dsize x) (m_curr x) (m_last x) (m_xerr x) (m_xst x) (m_normal x) v (m_wen x) (m_ren x) (m_closing x) (m_out x) (m_next x) (m_ora x) (m_k x) (m_tr x).
Definition u_m_wen (v : bool) (x : mux) : mux := mkmx (m_st x) (m_ch x) (m_chans x) (m_wr x) (m_open x) (m_ocount x) (m_nclosed x) (m_client x) (m_maxch x) (m_maxr x) (m_maxw x) (m_xmit x) (m_sending x) (m_errshut x) (m_inhdr x) (m_hdr x) (m_hpos x) (m_hsize x) (m_msgid x) (m_dpos x) (m_dsize x) (m_curr x) (m_last x) (m_xerr x) (m_xst x) (m_normal x) (m_acc x) v (m_ren x) (m_closing x) (m_out x) (m_next x) (m_ora x) (m_k x) (m_tr x).
Definition u_m_ren (v : bool) (x : mux) : mux := mkmx (m_st x) (m_ch x) (m_chans x) (m_wr x) (m_open x) (m_ocount x) (m_nclosed x) (m_client x) (m_maxch x) (m_maxr x) (m_maxw x) (m_xmit x) (m_sending x) (m_errshut x) (m_inhdr x) (m_hdr x) (m_hpos x) (m_hsize x) (m_msgid x) (m_dpos x) (m_dsize x) (m_curr x) (m_last x) (m_xerr x) (m_xst x) (m_normal x) (m_acc x) (m_wen x) v (m_closing x) (m_out x) (m_next x) (m_ora x) (m_k x) (m_tr x).
Definition u_m_closing (v : option (option nat)) (x : mux) : mux := mkmx (m_st x) (m_ch x) (m_chans x) (m_wr x) (m_open x) (m_ocount x) (m_nclosed x) (m_client x) (m_maxch x) (m_maxr x) (m_maxw x) (m_xmit x) (m_sending x) (m_errshut x) (m_inhdr x) (m_hdr x) (m_hpos x) (m_hsize x) (m_msgid x) (m_dpos x) (m_dsize x) (m_curr x) (m_last x) (m_xerr x) (m_xst x) (m_normal x) (m_acc x) (m_wen x) (m_ren x) v (m_out x) (m_next x) (m_ora x) (m_k x) (m_tr x).
Definition u_m_out (v : list Z) (x : mux) : mux := mkmx (m_st x) (m_ch x) (m_chans x) (m_wr x) (m_open x) (m_ocount x) (m_nclosed x) (m_client x) (m_maxch x) (m_maxr x) (m_maxw x) (m_xmit x) (m_sending x) (m_errshut x) (m_inhdr x) (m_hdr x) (m_hpos x) (m_hsize x) (m_msgid x) (m_dpos x) (m_dsize x) (m_curr x) (m_last x) (m_xerr x) (m_xst x) (m_normal x) (m_acc x) (m_wen x) (m_ren x) (m_closing x) v (m_next x) (m_ora x) (m_k x) (m_tr x).
Definition u_m_next (v : nat) (x : mux) : mux := mkmx (m_st x) (m_ch x) (m_chans x) (m_wr x) (m_open x) (m_ocount x) (m_nclosed x) (m_client x) (m_maxch x) (m_maxr x) (m_maxw x) (m_xmit x) (m_sending x) (m_errshut x) (m_inhdr x) (m_hdr x) (m_hpos x) (m_hsize x) (m_msgid x) (m_dpos x) (m_dsize x) (m_curr x) (m_last x) (m_xerr x) (m_xst x) (m_normal x) (m_acc x) (m_wen x) (m_ren x) (m_closing x) (m_out x) v (m_ora x) (m_k x) (m_tr x).
Definition u_m_ora (v : nat -> ans) (x : mux) : mux := mkmx (m_st x) (m_ch x) (m_chans x) (m_wr x) (m_open x) (m_ocount x) (m_nclosed x) (m_client x) (m_maxch x) (m_maxr x) (m_maxw x) (m_xmit x) (m_sending x) (m_errshut x) (m_inhdr x) (m_hdr x) (m_hpos x) (m_hsize x) (m_msgid x) (m_dpos x) (m_dsize x) (m_curr x) (m_last x) (m_xerr x) (m_xst x) (m_normal x) (m_acc x) (m_wen x) (m_ren x) (m_closing x) (m_out x) (m_next x) v (m_k x) (m_tr x).
Definition u_m_k (v : nat) (x : mux) : mux := mkmx (m_st x) (m_ch x) (m_chans x) (m_wr x) (m_open x) (m_ocount x) (m_nclosed x) (m_client x) (m_maxch x) (m_maxr x) (m_maxw x) (m_xmit x) (m_sending x) (m_errshut x) (m_inhdr x) (m_hdr x) (m_hpos x) (m_hsize x) (m_msgid x) (m_dpos x) (m_dsize x) (m_curr x) (m_last x) (m_xerr x) (m_xst x) (m_normal x) (m_acc x) (m_wen x) (m_ren x) (m_closing x) (m_out x) (m_next x) (m_ora x) v (m_tr x).
Definition u_m_tr (v : list mob) (x : mux) : mux := mkmx (m_st x) (m_ch x) (m_chans x) (m_wr x) (m_open x) (m_ocount x) (m_nclosed x) (m_client x) (m_maxch x) (m_maxr x) (m_maxw x) (m_xmit x) (m_sending x) (m_errshut x) (m_inhdr x) (m_hdr x) (m_hpos x) (m_hsize x) (m_msgid x) (m_dpos x) (m_dsize x) (m_curr x) (m_last x) (m_xerr x) (m_xst x) (m_normal x) (m_acc x) (m_wen x) (m_ren x) (m_closing x) (m_out x) (m_next x) (m_ora x) (m_k x) v.

Definition emit o s := u_m_tr (o :: m_tr s) s.
(** access to a channel: it must be allocated *)
Definition gch (s : mux) (h : nat) : option chan := if c_live (m_ch s h) then Some (m_ch s h) else None.
Definition sch (h : nat) (c : chan) (s : mux) : mux := u_m_ch (upd (m_ch s) h c) s.
Definition del (h : nat) (l : list nat) : list nat := filter (fun u => negb (u =? h)) l.
Definition set_st h (x : cst) (s : mux) : option mux := c <- gch s h ;; Some (sch h (u_c_st x c) s).

(** chan_ref, chan_deref, lines 691-708: also whether it was freed *)
Definition chan_ref h s : option mux := c <- gch s h ;; _ <- guard (0 <? c_ref c) ;; Some (sch h (u_c_ref (c_ref c + 1) c) s).
Definition chan_deref h s : option (mux * bool) :=
  c <- gch s h ;; _ <- guard (0 <? c_ref c) ;;
  if c_ref c =? 1 then Some (emit (OFreed h) (u_m_chans (del h (m_chans s)) (sch h (u_c_live false (u_c_ref 0 c)) s)), true)
  else Some (sch h (u_c_ref (c_ref c - 1) c) s, false).
Definition deref_ h s : option mux := ' (s, _) <- chan_deref h s ;; Some s.

(** mux_channel_set_closed, lines 795-819, with the callback finish_close_close_done *)
Definition set_closed h s : option (mux * bool) :=
  s <- set_st h CClosed s ;; _ <- guard (0 <? m_nclosed s) ;;
  let s := u_m_nclosed (m_nclosed s - 1) s in
  if m_nclosed s =? 0 then
    if mst_eqb (m_st s) MInClose then Some (u_m_normal (Some h) s, true)
    else Some (emit OChildClose (u_m_closing (Some (Some h)) (u_m_st MInClose s)), true)
  else Some (s, false).
(** finish_close, lines 821-839 *)
Definition finish_close h s : option mux :=
  c <- gch s h ;;
  let s := if c_cdone c then emit (OCloseDone h) (sch h (u_c_cdone false c) s) else s in
  deref_ h s.
(** i_finish_close_close_done, lines 841-846; mux_channel_finish_close, lines 859-864 *)
Definition close_close_done h s : option mux := finish_close h (u_m_st MClosed s).
Definition finish_final h s : option mux := ' (s, b) <- set_closed h s ;; if b then Some s else finish_close h s.

(** mux_send_new_channel_rsp, lines 866-880, mux_send_init, lines 882-891 *)
Definition send_rsp (rid maxr id e : Z) s : mux := u_m_wen true (u_m_xmit ([51; 0]%Z ++ u16b rid ++ u32b maxr ++ u16b id ++ u16b e) s).
Definition init_msg : list Z := [17; 0; 1; 0]%Z.

(** muxc_add_to_wrlist, lines 1093-1106 *)
Definition add_wr h s : option mux :=
  c <- gch s h ;;
  if negb (c_wready c) && negb (m_errshut s) then
    _ <- guard (negb (c_inwr c)) ;;
    let s := u_m_wr (m_wr s ++ [h]) (sch h (u_c_wready true (u_c_inwr true c)) s) in
    Some (if mst_eqb (m_st s) MClosed then s else u_m_wen true s)
  else Some s.
(** chan_sched_deferred_op, lines 1083-1091 *)
Definition sched h s : option mux := c <- gch s h ;; if c_defer c then Some s else s <- chan_ref h s ;; c <- gch s h ;; Some (sch h (u_c_defer true c) s).
(** chan_check_send_more, lines 896-922 *)
Definition check_send_more h s : option mux :=
  c <- gch s h ;;
  if (4 <=? length (d_wd (c_d c)) - d_wlen (c_d c)) && c_wen c && cst_eqb (c_st c) COpen then Some (emit (OWReady h) (sch h (u_c_wen false c) s)) else Some s.
(** chan_check_read, lines 946-1056 *)
Definition check_read h s : option mux :=
  c <- gch s h ;;
  ' (d, obs, k) <- do_read (c_d c) (m_ora s) (m_k s) ;;
  let s := u_m_tr (rev (map (ORead h) obs) ++ m_tr s) (u_m_k k (sch h (u_c_d d c) s)) in
  if negb (d_racc d =? 0)%Z || (c_sclose c && (d_rlen d =? 0)) then add_wr h s else Some s.
(** chan_deferred_op, lines 1058-1081 *)
Definition deferred_op h s : option mux :=
  c <- gch s h ;;
  s <- check_send_more h (sch h (u_c_defer false c) s) ;;
  s <- check_read h s ;;
  c <- gch s h ;;
  s <- (if negb (c_wready c) && negb (c_defer c) && cst_eqb (c_st c) CFinal then finish_final h s else Some s) ;;
  deref_ h s.

(** ** Calls of the user *)
(** muxc_write, lines 1108-1216 *)
Definition muxc_write h (l : list Z) (eom oob : bool) s : option mux :=
  c <- gch s h ;;
  let ret n e := emit (OWrite h l eom oob n e) in
  if length l =? 0 then Some (ret 0 0%Z s)
  else if negb (cst_eqb (c_st c) COpen) then Some (ret 0 GE_NOTREADY s)
  else if negb (d_err (c_d c) =? 0)%Z then Some (ret 0 (d_err (c_d c)) s)
  else
    ' (d, n) <- d_write (c_d c) l eom oob ;;
    let s := ret n 0%Z (sch h (u_c_d d c) s) in
    if n =? 0 then Some s else add_wr h s.
(** muxc_set_read_callback_enable, muxc_set_write_callback_enable, lines 1218-1240 *)
Definition set_ren h b s : option mux :=
  c <- gch s h ;;
  if Bool.eqb (d_ren (c_d c)) b then Some s else let s := sch h (u_c_d (u_d_ren b (c_d c)) c) s in if b then sched h s else Some s.
Definition set_wen h b s : option mux :=
  c <- gch s h ;;
  if Bool.eqb (c_wen c) b then Some s else let s := sch h (u_c_wen b c) s in if b then sched h s else Some s.
(** muxc_close_nolock, lines 1261-1297; [done]: with a close_done *)
Definition close_nolock h (done : bool) s : option (mux * Z) :=
  c <- gch s h ;;
  let fin s := s <- chan_ref h s ;; c <- gch s h ;; Some (sch h (u_c_cdone done c) s, 0%Z) in
  match c_st c with
  | CInOpen => fin (sch h (u_c_st CInOpenClose c) s)
  | CInRemClose => s <- sched h (sch h (u_c_st CFinal c) s) ;; fin s
  | COpen => s <- add_wr h (sch h (u_c_sclose true (u_c_st CInClose c)) s) ;; fin s
  | _ => Some (s, GE_NOTREADY)
  end.
(** muxc_close, lines 1299-1312 *)
Definition muxc_close h s : option mux :=
  c <- gch s h ;;
  if c_ccalled c then Some (emit (OClose h GE_NOTREADY) s)
  else ' (s, e) <- close_nolock h true (sch h (u_c_ccalled true c) s) ;; Some (emit (OClose h e) s).
(** muxc_free, lines 1314-1351 *)
Definition muxc_free h s : option mux :=
  c <- gch s h ;;
  let s := sch h (u_c_own false c) s in
  c <- gch s h ;;
  s <- match c_st c with
       | CInRemClose | CInClose | CFinal | CInOpenClose => Some (sch h (u_c_cdone false c) s)
       | CClosed => Some s
       | COpen | CInOpen => ' (s, _) <- close_nolock h false s ;; c <- gch s h ;; _ <- guard (1 <? c_ref c) ;; Some s
       | CPending => None
       end ;;
  deref_ h s.

(** next_chan_id, lines 1363-1370 *)
Definition next_id (s : mux) (n : nat) : nat := if m_maxch s - 1 <=? n then 0 else n + 1.
(** The loop of mux_new_channel, lines 1424-1438, on the ids of the list.  [i]: number
    of links looked at; [k]: position of the first; result: id and position to insert. *)
Fixpoint find_id (nx : nat -> nat) (ids : list nat) (k i fuel : nat) (id : nat) : option (nat * nat) :=
  let n := length ids in
  match nth_error ids ((k + i) mod n) with
  | None => None
  | Some x =>
      if negb (id =? x) then Some (id, match i with 0 => k | S j => S ((k + j) mod n) end)
      else match fuel with 0 => None | S fuel => find_id nx ids k (S i) fuel (nx id) end
  end.
Fixpoint count_le (ids : list nat) (id : nat) : nat := match ids with [] => 0 | x :: l => if id <? x then 0 else S (count_le l id) end.
Definition ids (s : mux) : list nat := map (fun h => c_id (m_ch s h)) (m_chans s).
Definition pick_id (s : mux) : option (nat * nat) :=
  match ids s with
  | [] => Some (0, 0)
  | l => find_id (next_id s) l (count_le l (m_last s)) 0 (length l) (next_id s (m_last s))
  end.
Definition new_dch (s : mux) : dch := mkd (repeat 0%Z (m_maxr s)) 0 0 false 0 (repeat 0%Z (m_maxw s)) 0 0 0 0 0 (repeat 0%Z 12) [] 0 false 0.
(** mux_new_channel, lines 1372-1467.  The id of the first channel of a mux is 0. *)
Definition new_channel (own : bool) (svc : list Z) s : mux * option nat :=
  match pick_id s with
  | None => (s, None)
  | Some (id, p) =>
      let h := m_next s in
      let c := mkch true own 1 id CClosed false false false svc false false false false false false false false (new_dch s) in
      let s := u_m_next (S h) (sch h c s) in
      let s := u_m_last (match m_chans s with [] => m_last s | _ => id end) s in
      (u_m_chans (firstn p (m_chans s) ++ h :: skipn p (m_chans s)) s, Some h)
  end.

(** muxc_reinit, lines 1671-1692 *)
Definition reinit (c : chan) : chan :=
  let d := c_d c in
  let d := mkd (d_rd d) 0 0 false 0 (d_wd d) 0 0 0 (d_win d) (d_rid d) (d_hdr d) (d_sg d) 0 (d_oob d) (d_err d) in
  mkch (c_live c) (c_own c) (c_ref c) (c_id c) CClosed (c_snew c) false false (c_svc c) false false (c_odone c) false false false (c_inwr c) (c_inopen c) d.
(** muxc_open, lines 1694-1773, with do_child; gensio_open of the child is taken to be
    accepted.  The call without do_child is made by the accepter only, for a new mux, see
    [mux_server].  The reference and the result, lines 1767-1772: *)
Definition open_fin h s : option mux := s <- chan_ref h s ;; Some (emit (OOpen h 0%Z) s).
(** lines 1702-1708: the state of a mux being opened *)
Definition open_clear s : mux := u_m_sending None (u_m_inhdr true (u_m_hpos 0 (u_m_hsize 0 (u_m_xerr 0%Z (u_m_errshut false (u_m_normal None s)))))).
(** the channel that opens a closed mux, lines 1709-1726 *)
Definition open_first h c s : mux :=
  let c := u_c_st CInOpen (u_c_odone true (reinit c)) in
  let s := if m_client s then
             let s := if c_inopen c then s else u_m_open (m_open s ++ [h]) s in
             u_m_ocount 1 (sch h (u_c_snew true (u_c_inopen true c)) s)
           else sch h c s in
  u_m_nclosed 1 (u_m_st MWaitChild (u_m_xmit init_msg s)).
(** another channel, lines 1743-1765 *)
Definition open_more h c s : option mux :=
  let s := sch h (reinit c) s in
  s <- (if (m_ocount s =? 0) && mst_eqb (m_st s) MOpen then add_wr h s
        else c <- gch s h ;; Some (u_m_open (m_open s ++ [h]) (sch h (u_c_inopen true c) s))) ;;
  c <- gch s h ;;
  Some (sch h (u_c_st CInOpen (u_c_snew true (u_c_odone true c))) (u_m_nclosed (S (m_nclosed s)) (u_m_ocount (S (m_ocount s)) s))).
Definition muxc_open h s : option mux :=
  c <- gch s h ;;
  if mst_eqb (m_st s) MClosed then open_fin h (open_first h c (open_clear s))
  else if negb (cst_eqb (c_st c) CClosed) then Some (emit (OOpen h GE_NOTREADY) s)
  else s <- open_more h c s ;; open_fin h s.

(** mux_call_open_done, lines 1631-1644 *)
Definition call_open_done h (e : Z) s : option mux :=
  c <- gch s h ;;
  deref_ h (if c_odone c then emit (OOpenDone h e) (sch h (u_c_odone false c) s) else s).

(** mux_shutdown_channels, lines 1878-1957: one channel *)
Definition shut1 (e : Z) h s : option mux :=
  c <- gch s h ;;
  let s := if c_inwr c then u_m_wr (del h (m_wr s)) s else s in
  let s := if c_inopen c then u_m_open (del h (m_open s)) s else s in
  let s := sch h (u_c_inwr false (u_c_wready false (u_c_inopen false c))) s in
  match c_st c with
  | CFinal => sched h s
  | CClosed | CInRemClose => Some s
  | CPending | CInOpen => s <- set_st h CClosed s ;; call_open_done h e s
  | CInOpenClose => s <- set_st h CClosed s ;; s <- chan_ref h s ;; s <- call_open_done h e s ;; s <- finish_close h s ;; deref_ h s
  | CInClose => s <- set_st h CClosed s ;; finish_close h s
  | COpen => c <- gch s h ;; sched h (sch h (u_c_st CInRemClose (u_c_d (u_d_err e (c_d c)) c)) s)
  end.
Fixpoint shut_all (e : Z) (l : list nat) s : option mux := match l with [] => Some s | h :: l => s <- shut1 e h s ;; shut_all e l s end.
Definition shutdown (e : Z) s : option mux :=
  let s := u_m_st MClosed (u_m_errshut true s) in
  s <- (if m_acc s && (mst_eqb (m_xst s) MWaitOpen || mst_eqb (m_xst s) MUninit) then
          match m_chans s with [] => None | h :: _ => s <- set_st h CClosed s ;; Some (emit (OAccOpen e) (u_m_acc false s)) end
        else Some s) ;;
  shut_all e (m_chans s) s.
(** mux_child_open_done, lines 1646-1669 *)
Definition child_opened (e : Z) s : option mux :=
  match m_chans s with
  | [] => None
  | h :: _ =>
      if negb (e =? 0)%Z then s <- shutdown e s ;; Some (u_m_nclosed 0 s)
      else
        c <- gch s h ;;
        if negb (cst_eqb (c_st c) CInOpen) then s <- set_st h CClosed s ;; s <- call_open_done h 0%Z s ;; finish_final h s
        else Some (u_m_wen true (u_m_ren true (u_m_st MUninit s)))
  end.
(** the close of the child is done: finish_close_close_done, lines 848-857, or
    mux_on_err_close, lines 2046-2057 *)
Definition child_closed s : option mux :=
  match m_closing s with
  | None => Some s
  | Some (Some h) => close_close_done h (u_m_closing None s)
  | Some None =>
      let s := u_m_closing None s in
      match m_normal s with Some h => close_close_done h s | None => shutdown (m_xerr s) s end
  end.

(** ** Sending *)
(** chan_setup_send_new_channel, lines 1959-1978, chan_send_close, lines 1242-1259 *)
Definition setup_new (maxr : nat) (c : chan) : option chan :=
  let d := c_d c in
  _ <- guard (match d_sg d with [] => true | _ => false end) ;;
  let n := length (c_svc c) in
  let hdr := [34; 0]%Z ++ u16b (Z.of_nat (c_id c)) ++ u32b (Z.of_nat maxr) ++ u16b (Z.of_nat n) ++ skipn 10 (d_hdr d) in
  let d := u_d_cur 0 (u_d_hdr hdr d) in
  Some (u_c_d (if n =? 0 then u_d_sg [SHdr 0 10] d else u_d_sent (Z.of_nat n) (u_d_sg [SHdr 0 10; SSvc 0 n] d)) c).
Definition setup_close (c : chan) : option chan :=
  let d := c_d c in
  _ <- guard (match d_sg d with [] => true | _ => false end) ;;
  let e := if (d_err d =? GE_REMCLOSE)%Z then 0%Z else d_err d in
  Some (u_c_d (u_d_cur 0 (u_d_sg [SHdr 0 8] (u_d_hdr ([66; 0]%Z ++ u16b (d_rid d) ++ u16b e ++ u16b 0 ++ skipn 8 (d_hdr d)) d))) c).
(** mux_child_write_ready, lines 2059-2206.  A step goes from the start to after the write
    of the first message picked from the list; when that is sent the loop goes on with
    another step, and other steps may come between (in the code they can not).
    The end, lines 2186-2190: *)
Definition wr_out s : mux := u_m_wen (match m_sending s, m_wr s with None, [] => false | _, _ => true end) s.
(** write to the child: how many of the bytes it takes *)
Definition child_take (l : list Z) s : mux * nat := let n := Nat.min (fst (m_ora s (m_k s))) (length l) in (u_m_k (S (m_k s)) (u_m_out (m_out s ++ firstn n l) s), n).
(** lines 2074-2123: the channel that is sending; whether to go on *)
Definition wr_chan s : option (mux * bool) :=
  match m_sending s with
  | None => Some (s, true)
  | Some h =>
      c <- gch s h ;;
      _ <- guard (match d_sg (c_d c) with [] => false | _ => true end) ;;
      l <- sgs_bytes (c_svc c) (c_d c) (d_sg (c_d c)) ;;
      let '(s, n) := child_take l s in
      let g := sg_adv (d_sg (c_d c)) n in
      match g with
      | _ :: _ => Some (sch h (u_c_d (u_d_sg g (c_d c)) c) s, false)
      | [] =>
          d <- sent_msg (c_d c) ;;
          let c := u_c_d d c in
          let s := u_m_sending None s in
          let s := if (0 <? d_wlen d) || c_snew c || c_sclose c then u_m_wr (m_wr s ++ [h]) (sch h (u_c_inwr true c) s) else sch h (u_c_wready false c) s in
          s <- sched h s ;; Some (s, true)
      end
  end.
(** lines 2125-2143: xmit_data *)
Definition wr_xmit s : mux * bool :=
  match m_xmit s with
  | [] => (s, true)
  | l => let '(s, n) := child_take l s in (u_m_xmit (skipn n l) s, length l <=? n)
  end.
(** lines 2145-2184: the next channel, and whether it has something to send *)
Definition wr_next s : option (mux * bool) :=
  match m_wr s with
  | [] => Some (wr_out s, false)
  | h :: l =>
      _ <- guard (match m_sending s with None => true | _ => false end) ;;
      c <- gch s h ;;
      let s := u_m_wr l s in
      let c := u_c_inwr false c in
      let d := c_d c in
      if c_snew c then c <- setup_new (length (d_rd d)) (u_c_snew false c) ;; Some (u_m_sending (Some h) (sch h c s), true)
      else if (negb (d_wlen d =? 0) || negb (d_racc d =? 0)%Z) && negb (c_csent c) then
        ' (d, b) <- setup_send d ;;
        if b : bool then Some (u_m_sending (Some h) (sch h (u_c_d d c) s), true) else Some (sch h (u_c_wready false (u_c_d d c)) s, false)
      else if c_sclose c && ((d_rlen d =? 0) || cst_eqb (c_st c) CInClose || cst_eqb (c_st c) CFinal) then
        c <- setup_close c ;; Some (u_m_sending (Some h) (sch h (u_c_csent true (u_c_sclose false c)) s), true)
      else Some (sch h (u_c_wready false c) s, false)
  end.
Definition write_ready s : option mux :=
  match m_st s with
  | MInClose | MClosed => Some (u_m_ren false (u_m_wen false s))
  | _ =>
      ' (s, go) <- wr_chan s ;;
      if go : bool then
        let '(s, go) := wr_xmit s in
        if go : bool then
          ' (s, picked) <- wr_next s ;;
          if picked : bool then ' (s, go) <- wr_chan s ;; Some (if go : bool then s else wr_out s) else Some s
        else Some (wr_out s)
      else Some (wr_out s)
  end.

(** ** Receiving *)
(** protocol_err and out_err, lines 2681-2708 *)
Definition out_err (e : Z) s : mux :=
  emit OChildClose (u_m_closing (Some None) (u_m_st MInClose (u_m_xerr e (u_m_xst (m_st s) (u_m_ren false (u_m_wen false s)))))).
Definition perr s : option (mux * bool) := Some (out_err GE_PROTOERR s, true).
Definition perr_close h s : option (mux * bool) := s <- deref_ h s ;; perr (u_m_curr None s).
Definition more s : option (mux * bool) := Some (s, false).
(** mux_get_channel, lines 2208-2221, mux_find_remote_id, lines 2223-2239 *)
Definition hid (s : mux) : nat := Z.to_nat (bu16 (skipn 2 (m_hdr s))).
Definition get_channel (s : mux) : option nat := find (fun h => c_id (m_ch s h) =? hid s) (m_chans s).
Definition find_remote (s : mux) (rid : Z) : bool :=
  existsb (fun h => let c := m_ch s h in (d_rid (c_d c) =? rid)%Z && match c_st c with CPending | CInOpen | CInOpenClose | CFinal => false | _ => true end) (m_chans s).

(** next_channel_req_send, lines 2424-2449 *)
Definition next_req (ch : option nat) s : option (mux * bool) :=
  s <- match m_open s with
       | h :: l => c <- gch s h ;; add_wr h (u_m_open l (sch h (u_c_inopen false c) s))
       | [] => _ <- guard (m_ocount s =? 0) ;; Some s
       end ;;
  match ch with
  | None => more s
  | Some h =>
      s <- chan_ref h s ;;
      c <- gch s h ;;
      s <- call_open_done h (d_err (c_d c)) s ;;
      ' (s, freed) <- chan_deref h s ;;
      if freed : bool then more s
      else c <- gch s h ;; s <- (if d_ren (c_d c) then sched h s else Some s) ;; more s
  end.
(** MUX_NEW_CHANNEL, lines 2328-2364 *)
Definition rx_new s : option (mux * bool) :=
  let rid := bu16 (skipn 2 (m_hdr s)) in
  let win := bu32 (skipn 4 (m_hdr s)) in
  let first := mst_eqb (m_st s) MWaitOpen in
  if negb first && find_remote s rid then perr s
  else
    ' (s, ch) <- (if first then match m_chans s with [] => None | h :: _ => Some (s, Some h) end
                  else Some (match new_channel false [] s with (s, Some h) => (u_m_nclosed (S (m_nclosed s)) s, Some h) | (s, None) => (s, None) end)) ;;
    let s := u_m_curr ch s in
    match ch with
    | None => more s
    | Some h =>
        c <- gch s h ;;
        let c := u_c_d (u_d_win win (c_d c)) (u_c_st CPending c) in
        let s := sch h c s in
        if (win <=? 128)%Z then if first then perr s else perr_close h s
        else more (u_m_inhdr false (u_m_dpos 0 (sch h (u_c_d (u_d_rid rid (c_d c)) c) s)))
    end.
(** MUX_NEW_CHANNEL_RSP, lines 2366-2422 *)
Definition rx_rsp s : option (mux * bool) :=
  match get_channel s with
  | None => perr s
  | Some h =>
      c <- gch s h ;;
      match c_st c with
      | CInOpen | CInOpenClose =>
          let bad := match m_st s with MInOpen | MOpen | MInClose => false | _ => true end in
          if bad then perr s
          else
            let s := if mst_eqb (m_st s) MInOpen then u_m_st MOpen s else s in
            let win := bu32 (skipn 4 (m_hdr s)) in
            let d := u_d_win win (u_d_rid (bu16 (skipn 8 (m_hdr s))) (c_d c)) in
            if (win <=? 128)%Z then perr (sch h (u_c_d d c) s)
            else
              let e := bu16 (skipn 10 (m_hdr s)) in
              let s := u_m_sending None (sch h (u_c_d (u_d_err e d) c) s) in
              _ <- guard (0 <? m_ocount s) ;;
              let s := u_m_ocount (m_ocount s - 1) s in
              if negb (e =? 0)%Z then
                s <- set_st h CClosed s ;; s <- call_open_done h e s ;;
                s <- (if cst_eqb (c_st c) CInOpenClose then close_close_done h s else Some s) ;;
                next_req None s
              else if cst_eqb (c_st c) CInOpenClose then
                s <- set_st h CInClose s ;; s <- call_open_done h GE_LOCALCLOSED s ;;
                c <- gch s h ;; s <- add_wr h (sch h (u_c_sclose true c) s) ;;
                next_req None s
              else s <- set_st h COpen s ;; next_req (Some h) s
      | _ => perr s
      end
  end.
(** MUX_CLOSE_CHANNEL, lines 2451-2478 *)
Definition rx_close s : option (mux * bool) :=
  match get_channel s with
  | None => perr s
  | Some h =>
      c <- gch s h ;;
      match c_st c with
      | CClosed | CInOpen | CInOpenClose | CFinal | CInRemClose => perr s
      | CInClose =>
          s <- sched h (sch h (u_c_st CFinal (u_c_d (u_d_err (bu16 (skipn 4 (m_hdr s))) (c_d c)) c)) s) ;;
          c <- gch s h ;; more (sch h (u_c_d (u_d_wlen 0 (c_d c)) c) s)
      | COpen | CPending =>
          let e := bu16 (skipn 4 (m_hdr s)) in
          let e := if (e =? 0)%Z then GE_REMCLOSE else e in
          s <- add_wr h (sch h (u_c_sclose true (u_c_st CInRemClose (u_c_d (u_d_err e (c_d c)) c))) s) ;;
          s <- sched h s ;;
          c <- gch s h ;; more (sch h (u_c_d (u_d_wlen 0 (c_d c)) c) s)
      end
  end.
(** MUX_DATA, lines 2480-2504 *)
Definition rx_data s : option (mux * bool) :=
  match get_channel s with
  | None => perr s
  | Some h =>
      c <- gch s h ;;
      match c_st c with
      | CClosed | CInOpen | CInOpenClose | CFinal | CInRemClose => perr s
      | _ =>
          let acked := bu32 (skipn 4 (m_hdr s)) in
          match recv_ack (c_d c) acked with
          | None => perr s
          | Some d =>
              let s := sch h (u_c_d d c) s in
              s <- (if (0 <? acked)%Z && negb (d_wlen d =? 0) then add_wr h s else Some s) ;;
              more (u_m_curr (Some h) (u_m_dpos 0 (u_m_inhdr false s)))
          end
      end
  end.
(** a whole header, lines 2310-2507 *)
Definition rx_hdr s : option (mux * bool) :=
  if (m_msgid s =? 1)%Z then
    if negb (mst_eqb (m_st s) MUninit) then perr s
    else match m_open s with [] => more (u_m_st MWaitOpen s) | _ => next_req None (u_m_st MInOpen s) end
  else if mst_eqb (m_st s) MUninit then perr s
  else if (m_msgid s =? 2)%Z then rx_new s
  else if (m_msgid s =? 3)%Z then rx_rsp s
  else if (m_msgid s =? 4)%Z then rx_close s
  else if (m_msgid s =? 5)%Z then rx_data s
  else None.

(** new_chan_no_service, lines 2592-2658 *)
Definition rx_opened h s : option (mux * bool) :=
  s <- set_st h COpen s ;;
  c <- gch s h ;;
  let rsp e := send_rsp (d_rid (c_d c)) (Z.of_nat (length (d_rd (c_d c)))) (Z.of_nat (c_id c)) e in
  if mst_eqb (m_st s) MWaitOpen then
    let s := rsp 0%Z (u_m_st MOpen s) in
    s <- (if m_acc s then Some (emit (OAccOpen 0%Z) (sch h (u_c_own true c) s)) else call_open_done h 0%Z s) ;;
    more (u_m_inhdr true s)
  else
    match m_xmit s with
    | _ :: _ => perr_close h s
    | [] =>
        let e := if snd (m_ora s (m_k s)) then GE_NOTSUP else 0%Z in
        let s := rsp e (emit (ONewChan h (c_svc c) e) (u_m_k (S (m_k s)) s)) in
        s <- (if negb (e =? 0)%Z then set_st h CClosed s
              else let c := u_c_own true c in
                   if length (c_svc c) =? 0 then Some (sch h c s) else add_wr h (sch h (u_c_d (u_d_racc (Z.of_nat (length (c_svc c))) (c_d c)) c) s)) ;;
        more (u_m_inhdr true s)
    end.
(** handle_read_no_data, lines 2667-2674 *)
Definition rx_got h s : option (mux * bool) :=
  s <- chan_ref h s ;; s <- check_send_more h s ;;
  s <- (if m_dsize s =? 0 then Some s else check_read h s) ;;
  s <- deref_ h s ;;
  more (u_m_inhdr true s).

(** One round of the loop of mux_child_read, lines 2266-2673, for data that is not empty:
    how many bytes were used, and whether to stop. *)
Definition with_used (n : nat) (r : option (mux * bool)) : option (mux * nat * bool) := ' (s, e) <- r ;; Some (s, n, e).
Definition msg_words (id : Z) : Z := nth (Z.to_nat id) [0; 1; 2; 3; 2; 2]%Z 0%Z.
Definition rx_round (buf : list Z) s : option (mux * nat * bool) :=
  let b := nth 0 buf 0%Z in
  if m_inhdr s then
    if m_hpos s =? 0 then
      hd <- mset (m_hdr s) 0 b ;;
      let s := u_m_hsize (Z.to_nat ((b mod 16) * 4)) (u_m_hpos 1 (u_m_hdr hd s)) in
      if 12 <? m_hsize s then with_used 1 (perr s)
      else
        let s := u_m_msgid (b / 16)%Z s in
        if (m_msgid s <=? 0)%Z || (5 <? m_msgid s)%Z then with_used 1 (perr s)
        else if (Z.of_nat (m_hsize s) <? msg_words (m_msgid s))%Z then with_used 1 (perr s)
        else with_used 1 (more s)
    else if length buf + m_hpos s <? m_hsize s then
      hd <- mwrite (m_hdr s) (m_hpos s) buf ;;
      with_used (length buf) (more (u_m_hpos (m_hpos s + length buf) (u_m_hdr hd s)))
    else
      let used := m_hsize s - m_hpos s in
      hd <- mwrite (m_hdr s) (m_hpos s) (firstn used buf) ;;
      with_used used (rx_hdr (u_m_hpos 0 (u_m_hdr hd s)))
  else if m_dpos s =? 0 then with_used 1 (more (u_m_dpos 1 (u_m_dsize (Z.to_nat b * 256) s)))
  else if m_dpos s =? 1 then
    let s := u_m_dpos 2 (u_m_dsize (m_dsize s + Z.to_nat b) s) in
    with_used 1
      (if (m_msgid s =? 2)%Z then
         match m_curr s with
         | None => more s
         | Some h =>
             c <- gch s h ;;
             let s := sch h (u_c_svc (repeat 0%Z (m_dsize s)) c) s in
             if m_dsize s =? 0 then rx_opened h s else more s
         end
       else if (m_msgid s =? 5)%Z then
         h <- m_curr s ;;
         if m_dsize s =? 0 then rx_got h s
         else
           c <- gch s h ;;
           r <- recv_len (c_d c) (nth 1 (m_hdr s) 0%Z) (m_dsize s) ;;
           match r with None => perr s | Some d => more (sch h (u_c_d d c) s) end
       else None)
  else
    let used := m_dsize s + 2 - m_dpos s in
    if (m_msgid s =? 2)%Z then
      if length buf + m_dpos s - 2 <? m_dsize s then
        s <- match m_curr s with
             | None => Some s
             | Some h => c <- gch s h ;; v <- mwrite (c_svc c) (m_dpos s - 2) buf ;; Some (sch h (u_c_svc v c) s)
             end ;;
        with_used (length buf) (more (u_m_dpos (m_dpos s + length buf) s))
      else
        match m_curr s with
        | Some h => c <- gch s h ;; v <- mwrite (c_svc c) (m_dpos s - 2) (firstn used buf) ;; with_used used (rx_opened h (sch h (u_c_svc v c) s))
        | None =>
            match m_xmit s with
            | _ :: _ => with_used used (perr s)
            | [] => with_used used (more (u_m_inhdr true (send_rsp (bu16 (skipn 2 (m_hdr s))) 0 0 GE_INUSE s)))
            end
        end
    else if (m_msgid s =? 5)%Z then
      h <- m_curr s ;;
      c <- gch s h ;;
      if length buf + m_dpos s <? m_dsize s + 2 then
        d <- addrd (c_d c) buf ;;
        with_used (length buf) (more (u_m_dpos (m_dpos s + length buf) (sch h (u_c_d d c) s)))
      else
        d <- addrd (c_d c) (firstn used buf) ;;
        with_used used (rx_got h (sch h (u_c_d d c) s))
    else None.
(** the loop, for at most as many rounds as there are bytes *)
Fixpoint rx_loop (fuel : nat) (buf : list Z) s : option mux :=
  match buf with
  | [] => Some s
  | _ => match fuel with
         | 0 => None
         | S fuel => ' (s, used, stop) <- rx_round buf s ;; if stop : bool then Some s else rx_loop fuel (skipn used buf) s
         end
  end.
(** mux_child_read, lines 2241-2709; [e]: error from the child *)
Definition child_read (e : Z) (buf : list Z) s : option mux :=
  match m_st s with
  | MInClose | MClosed => Some (u_m_ren false (u_m_wen false s))
  | _ => if negb (e =? 0)%Z then Some (out_err e s) else rx_loop (length buf) buf s
  end.

(** ** All together.  Calls of the user, for channels it has; opening and closing of the
    child are done; the deferred operation of a channel; READ and WRITE_READY of the child.
    A step that is not possible changes nothing. *)
Inductive mev := EvAlloc (svc : list Z) | EvOpen (h : nat) | EvWrite (h : nat) (l : list Z) (eom oob : bool) | EvRen (h : nat) (b : bool) | EvWen (h : nat) (b : bool)
  | EvClose (h : nat) | EvFree (h : nat) | EvOpened (e : Z) | EvClosed | EvDefer (h : nat) | EvRead (e : Z) (buf : list Z) | EvWReady.
Definition owned (s : mux) h : bool := c_live (m_ch s h) && c_own (m_ch s h).
Definition mstep (s : mux) (e : mev) : option mux :=
  match e with
  | EvAlloc svc => if mst_eqb (m_st s) MOpen then Some (fst (new_channel true svc s)) else Some s
  | EvOpen h => if owned s h then muxc_open h s else Some s
  | EvWrite h l eom oob => if owned s h then muxc_write h l eom oob s else Some s
  | EvRen h b => if owned s h then set_ren h b s else Some s
  | EvWen h b => if owned s h then set_wen h b s else Some s
  | EvClose h => if owned s h then muxc_close h s else Some s
  | EvFree h => if owned s h then muxc_free h s else Some s
  | EvOpened e => if mst_eqb (m_st s) MWaitChild then child_opened e s else Some s
  | EvClosed => child_closed s
  | EvDefer h => if c_live (m_ch s h) && c_defer (m_ch s h) then deferred_op h s else Some s
  | EvRead e buf => if m_ren s then child_read e buf s else Some s
  | EvWReady => if m_wen s then write_ready s else Some s
  end.
Fixpoint mrun (es : list mev) (s : mux) : option mux := match es with [] => Some s | e :: es => s <- mstep s e ;; mrun es s end.

(** A new mux, mux_gensio_alloc_data, lines 2737-2793: for a client, or for a server made by
    an accepter (muxna_new_child, lines 2887-2908), where the child is open. *)
Definition no_chan : chan := mkch false false 0 0 CClosed false false false [] false false false false false false false false (mkd [] 0 0 false 0 [] 0 0 0 0 0 [] [] 0 false 0).
Definition mux_alloc (client : bool) (maxch maxr maxw : nat) (svc : list Z) (ora : nat -> ans) : mux :=
  let s := mkmx MClosed (fun _ => no_chan) [] [] [] 0 1 client maxch maxr maxw init_msg None false true (repeat 0%Z 12) 0 0 0 0 0 None 0 0 MClosed None false false false None [] 0 ora 0 [] in
  fst (new_channel client svc s).
Definition mux_server maxch maxr maxw ora : mux := u_m_wen true (u_m_ren true (u_m_acc true (u_m_st MUninit (mux_alloc false maxch maxr maxw [] ora)))).
Definition mux_client maxch maxr maxw svc ora : mux := mux_alloc true maxch maxr maxw svc ora.
