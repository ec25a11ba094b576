(** Model of the base layer every filter gensio is built on, lib/gensio_base.c:
    the state machine for open, close, errors and freeing, with its reference
    count, run by any number of threads.

    What happens between taking the lock of the object and giving it back is one
    step.  Where the code gives the lock back in the middle of a function, to call
    the user or the filter, the rest of that function becomes a frame, and other
    steps may come before it goes on.  The filter, the layer below, the timers and
    the runner are the environment: the answers of the filter are arbitrary, and
    what is assumed about the others is written at each step.

    Left out: the data and its counts; which of the callbacks of the layer below
    are enabled; GENSIO_FUNC_DISABLE; control calls; base_gensio_server_start;
    trait flags.  Calls the filter makes back to the base layer (starting a timer
    and so on) are steps of their own, never in the middle of another.  The count
    in_write_count (basen_write, gensio_base.c:699-762) is always zero when the
    lock is free, because the lock is held from its increment to its decrement; so
    ll_want_close is never set, and both are left out. *)
From Verif Require Import Base.
Open Scope Z_scope.

(** include/gensio/gensio_err.h *)
Definition GE_INPROGRESS : Z := 11.
Definition GE_NOTREADY : Z := 12.
Definition GE_RETRY : Z := 15.
Definition GE_LOCALCLOSED : Z := 35.

(** enum basen_state, gensio_base.c:34-150 *)
Inductive bst := B_CLOSED | B_LL_OPEN | B_FILTER_OPEN | B_OPEN | B_DRAIN | B_FILTER_CLOSE
  | B_LL_CLOSE | B_LL_IO_ERR | B_IO_ERR.

(** The layer below as its interface describes it (gensio_base.h:359-380). *)
Inductive llst := LLClosed | LLOpening | LLOpen | LLClosing.

(** A timer: idle, running, or stopped with the done call still to come. *)
Inductive tst := TIdle | TRun | TStopping.

(** The places where a function has given the lock back:
    FOpenErr   basen_ll_open_done in open_done with an error (:1185)
    FDOpen     basen_deferred_op in open_done (:1030)
    FDReadErr  basen_deferred_op in the READ event with the error (:1043)
    FDRead     basen_deferred_op in filter_ll_write (:1048)
    FDWrite    basen_deferred_op in the WRITE_READY event (:1073)
    FDClose    basen_deferred_op in close_done (:1088, 949)
    FTClose    basen_timeout or basen_deferred_op in close_done, called by
               basen_check_open_close_ops (:1488, 1094, 1662, 949)
    FLRead     basen_ll_read in filter_ll_write (:1718)
    FLReadW    basen_ll_read in the WRITE_READY event (:1757)
    FLWrite    basen_ll_write_ready in the WRITE_READY event (:1819)
    FTimeout   basen_timeout in gensio_filter_timeout (:1480)
    The flag tells if the user's function has been entered; for FDRead and FLRead
    it tells that basen_read_data_handler has given the lock back to call the user. *)
Inductive fkind := FOpenErr (e : Z) | FDOpen (e : Z) | FDReadErr | FDRead | FDWrite | FDClose | FTClose
  | FLRead | FLReadW | FLWrite | FTimeout.

(** What a user of the object sees and does: open succeeded; open_done called;
    close succeeded, with a callback or not; close_done called; the READ and
    WRITE_READY events; gensio_free called; the memory given back. *)
Inductive obs := OUOpen | OOpenDone (e : Z) | OUClose (cb : bool) | OCloseDone | ORead | OWrite | OUFree | OFreed.

(** struct basen_data, gensio_base.c:152-222, in this order: the answers the
    environment gives in this step; state; refcount; is the memory still there;
    open_done and close_done are not NULL; close_requested; read_enabled, in_read,
    xmit_enabled, in_xmit_ready, redo_xmit_ready, ll_can_write; ll_err; open_err;
    deferred_op_pending, _read, _write, _open, _close; timer_start_pending.
    Then the environment: the layer below; timer and drain timer; the filter has
    been cleaned up and not set up since; the frames; the user has not called
    free; the user waits for close_done; this open ended without an error (set just
    before open_done is called); how many opens ended without open_done; what was seen, newest
    first. *)
Record bd := mkbd {
  b_or : list Z; b_st : bst; b_ref : Z; b_live : bool; b_odone : bool;
  b_cdone : bool; b_creq : bool; b_rd : bool; b_inrd : bool; b_xmit : bool;
  b_inx : bool; b_redo : bool; b_canw : bool; b_err : Z; b_operr : Z;
  b_dpend : bool; b_dread : bool; b_dwrite : bool; b_dopen : bool; b_dclose : bool;
  b_tpend : bool; b_ll : llst; b_tm : tst; b_dr : tst; b_clean : bool;
  b_fr : list (fkind * bool); b_usr : bool; b_ucl : bool; b_opened : bool; b_lost : nat;
  b_tr : list obs }.

Definition set_or (v : list Z) (s : bd) : bd :=
  mkbd v (b_st s) (b_ref s) (b_live s) (b_odone s) (b_cdone s) (b_creq s) (b_rd s) (b_inrd s) (b_xmit s) (b_inx s) (b_redo s) (b_canw s) (b_err s) (b_operr s) (b_dpend s) (b_dread s) (b_dwrite s) (b_dopen s) (b_dclose s) (b_tpend s) (b_ll s) (b_tm s) (b_dr s) (b_clean s) (b_fr s) (b_usr s) (b_ucl s) (b_opened s) (b_lost s) (b_tr s).
Definition set_st (v : bst) (s : bd) : bd :=
  mkbd (b_or s) v (b_ref s) (b_live s) (b_odone s) (b_cdone s) (b_creq s) (b_rd s) (b_inrd s) (b_xmit s) (b_inx s) (b_redo s) (b_canw s) (b_err s) (b_operr s) (b_dpend s) (b_dread s) (b_dwrite s) (b_dopen s) (b_dclose s) (b_tpend s) (b_ll s) (b_tm s) (b_dr s) (b_clean s) (b_fr s) (b_usr s) (b_ucl s) (b_opened s) (b_lost s) (b_tr s).
Definition set_ref (v : Z) (s : bd) : bd :=
  mkbd (b_or s) (b_st s) v (b_live s) (b_odone s) (b_cdone s) (b_creq s) (b_rd s) (b_inrd s) (b_xmit s) (b_inx s) (b_redo s) (b_canw s) (b_err s) (b_operr s) (b_dpend s) (b_dread s) (b_dwrite s) (b_dopen s) (b_dclose s) (b_tpend s) (b_ll s) (b_tm s) (b_dr s) (b_clean s) (b_fr s) (b_usr s) (b_ucl s) (b_opened s) (b_lost s) (b_tr s).
Definition set_live (v : bool) (s : bd) : bd :=
  mkbd (b_or s) (b_st s) (b_ref s) v (b_odone s) (b_cdone s) (b_creq s) (b_rd s) (b_inrd s) (b_xmit s) (b_inx s) (b_redo s) (b_canw s) (b_err s) (b_operr s) (b_dpend s) (b_dread s) (b_dwrite s) (b_dopen s) (b_dclose s) (b_tpend s) (b_ll s) (b_tm s) (b_dr s) (b_clean s) (b_fr s) (b_usr s) (b_ucl s) (b_opened s) (b_lost s) (b_tr s).
Definition set_odone (v : bool) (s : bd) : bd :=
  mkbd (b_or s) (b_st s) (b_ref s) (b_live s) v (b_cdone s) (b_creq s) (b_rd s) (b_inrd s) (b_xmit s) (b_inx s) (b_redo s) (b_canw s) (b_err s) (b_operr s) (b_dpend s) (b_dread s) (b_dwrite s) (b_dopen s) (b_dclose s) (b_tpend s) (b_ll s) (b_tm s) (b_dr s) (b_clean s) (b_fr s) (b_usr s) (b_ucl s) (b_opened s) (b_lost s) (b_tr s).
Definition set_cdone (v : bool) (s : bd) : bd :=
  mkbd (b_or s) (b_st s) (b_ref s) (b_live s) (b_odone s) v (b_creq s) (b_rd s) (b_inrd s) (b_xmit s) (b_inx s) (b_redo s) (b_canw s) (b_err s) (b_operr s) (b_dpend s) (b_dread s) (b_dwrite s) (b_dopen s) (b_dclose s) (b_tpend s) (b_ll s) (b_tm s) (b_dr s) (b_clean s) (b_fr s) (b_usr s) (b_ucl s) (b_opened s) (b_lost s) (b_tr s).
Definition set_creq (v : bool) (s : bd) : bd :=
  mkbd (b_or s) (b_st s) (b_ref s) (b_live s) (b_odone s) (b_cdone s) v (b_rd s) (b_inrd s) (b_xmit s) (b_inx s) (b_redo s) (b_canw s) (b_err s) (b_operr s) (b_dpend s) (b_dread s) (b_dwrite s) (b_dopen s) (b_dclose s) (b_tpend s) (b_ll s) (b_tm s) (b_dr s) (b_clean s) (b_fr s) (b_usr s) (b_ucl s) (b_opened s) (b_lost s) (b_tr s).
Definition set_rd (v : bool) (s : bd) : bd :=
  mkbd (b_or s) (b_st s) (b_ref s) (b_live s) (b_odone s) (b_cdone s) (b_creq s) v (b_inrd s) (b_xmit s) (b_inx s) (b_redo s) (b_canw s) (b_err s) (b_operr s) (b_dpend s) (b_dread s) (b_dwrite s) (b_dopen s) (b_dclose s) (b_tpend s) (b_ll s) (b_tm s) (b_dr s) (b_clean s) (b_fr s) (b_usr s) (b_ucl s) (b_opened s) (b_lost s) (b_tr s).
Definition set_inrd (v : bool) (s : bd) : bd :=
  mkbd (b_or s) (b_st s) (b_ref s) (b_live s) (b_odone s) (b_cdone s) (b_creq s) (b_rd s) v (b_xmit s) (b_inx s) (b_redo s) (b_canw s) (b_err s) (b_operr s) (b_dpend s) (b_dread s) (b_dwrite s) (b_dopen s) (b_dclose s) (b_tpend s) (b_ll s) (b_tm s) (b_dr s) (b_clean s) (b_fr s) (b_usr s) (b_ucl s) (b_opened s) (b_lost s) (b_tr s).
Definition set_xmit (v : bool) (s : bd) : bd :=
  mkbd (b_or s) (b_st s) (b_ref s) (b_live s) (b_odone s) (b_cdone s) (b_creq s) (b_rd s) (b_inrd s) v (b_inx s) (b_redo s) (b_canw s) (b_err s) (b_operr s) (b_dpend s) (b_dread s) (b_dwrite s) (b_dopen s) (b_dclose s) (b_tpend s) (b_ll s) (b_tm s) (b_dr s) (b_clean s) (b_fr s) (b_usr s) (b_ucl s) (b_opened s) (b_lost s) (b_tr s).
Definition set_inx (v : bool) (s : bd) : bd :=
  mkbd (b_or s) (b_st s) (b_ref s) (b_live s) (b_odone s) (b_cdone s) (b_creq s) (b_rd s) (b_inrd s) (b_xmit s) v (b_redo s) (b_canw s) (b_err s) (b_operr s) (b_dpend s) (b_dread s) (b_dwrite s) (b_dopen s) (b_dclose s) (b_tpend s) (b_ll s) (b_tm s) (b_dr s) (b_clean s) (b_fr s) (b_usr s) (b_ucl s) (b_opened s) (b_lost s) (b_tr s).
Definition set_redo (v : bool) (s : bd) : bd :=
  mkbd (b_or s) (b_st s) (b_ref s) (b_live s) (b_odone s) (b_cdone s) (b_creq s) (b_rd s) (b_inrd s) (b_xmit s) (b_inx s) v (b_canw s) (b_err s) (b_operr s) (b_dpend s) (b_dread s) (b_dwrite s) (b_dopen s) (b_dclose s) (b_tpend s) (b_ll s) (b_tm s) (b_dr s) (b_clean s) (b_fr s) (b_usr s) (b_ucl s) (b_opened s) (b_lost s) (b_tr s).
Definition set_canw (v : bool) (s : bd) : bd :=
  mkbd (b_or s) (b_st s) (b_ref s) (b_live s) (b_odone s) (b_cdone s) (b_creq s) (b_rd s) (b_inrd s) (b_xmit s) (b_inx s) (b_redo s) v (b_err s) (b_operr s) (b_dpend s) (b_dread s) (b_dwrite s) (b_dopen s) (b_dclose s) (b_tpend s) (b_ll s) (b_tm s) (b_dr s) (b_clean s) (b_fr s) (b_usr s) (b_ucl s) (b_opened s) (b_lost s) (b_tr s).
Definition set_err (v : Z) (s : bd) : bd :=
  mkbd (b_or s) (b_st s) (b_ref s) (b_live s) (b_odone s) (b_cdone s) (b_creq s) (b_rd s) (b_inrd s) (b_xmit s) (b_inx s) (b_redo s) (b_canw s) v (b_operr s) (b_dpend s) (b_dread s) (b_dwrite s) (b_dopen s) (b_dclose s) (b_tpend s) (b_ll s) (b_tm s) (b_dr s) (b_clean s) (b_fr s) (b_usr s) (b_ucl s) (b_opened s) (b_lost s) (b_tr s).
Definition set_operr (v : Z) (s : bd) : bd :=
  mkbd (b_or s) (b_st s) (b_ref s) (b_live s) (b_odone s) (b_cdone s) (b_creq s) (b_rd s) (b_inrd s) (b_xmit s) (b_inx s) (b_redo s) (b_canw s) (b_err s) v (b_dpend s) (b_dread s) (b_dwrite s) (b_dopen s) (b_dclose s) (b_tpend s) (b_ll s) (b_tm s) (b_dr s) (b_clean s) (b_fr s) (b_usr s) (b_ucl s) (b_opened s) (b_lost s) (b_tr s).
Definition set_dpend (v : bool) (s : bd) : bd :=
  mkbd (b_or s) (b_st s) (b_ref s) (b_live s) (b_odone s) (b_cdone s) (b_creq s) (b_rd s) (b_inrd s) (b_xmit s) (b_inx s) (b_redo s) (b_canw s) (b_err s) (b_operr s) v (b_dread s) (b_dwrite s) (b_dopen s) (b_dclose s) (b_tpend s) (b_ll s) (b_tm s) (b_dr s) (b_clean s) (b_fr s) (b_usr s) (b_ucl s) (b_opened s) (b_lost s) (b_tr s).
Definition set_dread (v : bool) (s : bd) : bd :=
  mkbd (b_or s) (b_st s) (b_ref s) (b_live s) (b_odone s) (b_cdone s) (b_creq s) (b_rd s) (b_inrd s) (b_xmit s) (b_inx s) (b_redo s) (b_canw s) (b_err s) (b_operr s) (b_dpend s) v (b_dwrite s) (b_dopen s) (b_dclose s) (b_tpend s) (b_ll s) (b_tm s) (b_dr s) (b_clean s) (b_fr s) (b_usr s) (b_ucl s) (b_opened s) (b_lost s) (b_tr s).
Definition set_dwrite (v : bool) (s : bd) : bd :=
  mkbd (b_or s) (b_st s) (b_ref s) (b_live s) (b_odone s) (b_cdone s) (b_creq s) (b_rd s) (b_inrd s) (b_xmit s) (b_inx s) (b_redo s) (b_canw s) (b_err s) (b_operr s) (b_dpend s) (b_dread s) v (b_dopen s) (b_dclose s) (b_tpend s) (b_ll s) (b_tm s) (b_dr s) (b_clean s) (b_fr s) (b_usr s) (b_ucl s) (b_opened s) (b_lost s) (b_tr s).
Definition set_dopen (v : bool) (s : bd) : bd :=
  mkbd (b_or s) (b_st s) (b_ref s) (b_live s) (b_odone s) (b_cdone s) (b_creq s) (b_rd s) (b_inrd s) (b_xmit s) (b_inx s) (b_redo s) (b_canw s) (b_err s) (b_operr s) (b_dpend s) (b_dread s) (b_dwrite s) v (b_dclose s) (b_tpend s) (b_ll s) (b_tm s) (b_dr s) (b_clean s) (b_fr s) (b_usr s) (b_ucl s) (b_opened s) (b_lost s) (b_tr s).
Definition set_dclose (v : bool) (s : bd) : bd :=
  mkbd (b_or s) (b_st s) (b_ref s) (b_live s) (b_odone s) (b_cdone s) (b_creq s) (b_rd s) (b_inrd s) (b_xmit s) (b_inx s) (b_redo s) (b_canw s) (b_err s) (b_operr s) (b_dpend s) (b_dread s) (b_dwrite s) (b_dopen s) v (b_tpend s) (b_ll s) (b_tm s) (b_dr s) (b_clean s) (b_fr s) (b_usr s) (b_ucl s) (b_opened s) (b_lost s) (b_tr s).
Definition set_tpend (v : bool) (s : bd) : bd :=
  mkbd (b_or s) (b_st s) (b_ref s) (b_live s) (b_odone s) (b_cdone s) (b_creq s) (b_rd s) (b_inrd s) (b_xmit s) (b_inx s) (b_redo s) (b_canw s) (b_err s) (b_operr s) (b_dpend s) (b_dread s) (b_dwrite s) (b_dopen s) (b_dclose s) v (b_ll s) (b_tm s) (b_dr s) (b_clean s) (b_fr s) (b_usr s) (b_ucl s) (b_opened s) (b_lost s) (b_tr s).
Definition set_ll (v : llst) (s : bd) : bd :=
  mkbd (b_or s) (b_st s) (b_ref s) (b_live s) (b_odone s) (b_cdone s) (b_creq s) (b_rd s) (b_inrd s) (b_xmit s) (b_inx s) (b_redo s) (b_canw s) (b_err s) (b_operr s) (b_dpend s) (b_dread s) (b_dwrite s) (b_dopen s) (b_dclose s) (b_tpend s) v (b_tm s) (b_dr s) (b_clean s) (b_fr s) (b_usr s) (b_ucl s) (b_opened s) (b_lost s) (b_tr s).
Definition set_tm (v : tst) (s : bd) : bd :=
  mkbd (b_or s) (b_st s) (b_ref s) (b_live s) (b_odone s) (b_cdone s) (b_creq s) (b_rd s) (b_inrd s) (b_xmit s) (b_inx s) (b_redo s) (b_canw s) (b_err s) (b_operr s) (b_dpend s) (b_dread s) (b_dwrite s) (b_dopen s) (b_dclose s) (b_tpend s) (b_ll s) v (b_dr s) (b_clean s) (b_fr s) (b_usr s) (b_ucl s) (b_opened s) (b_lost s) (b_tr s).
Definition set_dr (v : tst) (s : bd) : bd :=
  mkbd (b_or s) (b_st s) (b_ref s) (b_live s) (b_odone s) (b_cdone s) (b_creq s) (b_rd s) (b_inrd s) (b_xmit s) (b_inx s) (b_redo s) (b_canw s) (b_err s) (b_operr s) (b_dpend s) (b_dread s) (b_dwrite s) (b_dopen s) (b_dclose s) (b_tpend s) (b_ll s) (b_tm s) v (b_clean s) (b_fr s) (b_usr s) (b_ucl s) (b_opened s) (b_lost s) (b_tr s).
Definition set_clean (v : bool) (s : bd) : bd :=
  mkbd (b_or s) (b_st s) (b_ref s) (b_live s) (b_odone s) (b_cdone s) (b_creq s) (b_rd s) (b_inrd s) (b_xmit s) (b_inx s) (b_redo s) (b_canw s) (b_err s) (b_operr s) (b_dpend s) (b_dread s) (b_dwrite s) (b_dopen s) (b_dclose s) (b_tpend s) (b_ll s) (b_tm s) (b_dr s) v (b_fr s) (b_usr s) (b_ucl s) (b_opened s) (b_lost s) (b_tr s).
Definition set_fr (v : list (fkind * bool)) (s : bd) : bd :=
  mkbd (b_or s) (b_st s) (b_ref s) (b_live s) (b_odone s) (b_cdone s) (b_creq s) (b_rd s) (b_inrd s) (b_xmit s) (b_inx s) (b_redo s) (b_canw s) (b_err s) (b_operr s) (b_dpend s) (b_dread s) (b_dwrite s) (b_dopen s) (b_dclose s) (b_tpend s) (b_ll s) (b_tm s) (b_dr s) (b_clean s) v (b_usr s) (b_ucl s) (b_opened s) (b_lost s) (b_tr s).
Definition set_usr (v : bool) (s : bd) : bd :=
  mkbd (b_or s) (b_st s) (b_ref s) (b_live s) (b_odone s) (b_cdone s) (b_creq s) (b_rd s) (b_inrd s) (b_xmit s) (b_inx s) (b_redo s) (b_canw s) (b_err s) (b_operr s) (b_dpend s) (b_dread s) (b_dwrite s) (b_dopen s) (b_dclose s) (b_tpend s) (b_ll s) (b_tm s) (b_dr s) (b_clean s) (b_fr s) v (b_ucl s) (b_opened s) (b_lost s) (b_tr s).
Definition set_ucl (v : bool) (s : bd) : bd :=
  mkbd (b_or s) (b_st s) (b_ref s) (b_live s) (b_odone s) (b_cdone s) (b_creq s) (b_rd s) (b_inrd s) (b_xmit s) (b_inx s) (b_redo s) (b_canw s) (b_err s) (b_operr s) (b_dpend s) (b_dread s) (b_dwrite s) (b_dopen s) (b_dclose s) (b_tpend s) (b_ll s) (b_tm s) (b_dr s) (b_clean s) (b_fr s) (b_usr s) v (b_opened s) (b_lost s) (b_tr s).
Definition set_opened (v : bool) (s : bd) : bd :=
  mkbd (b_or s) (b_st s) (b_ref s) (b_live s) (b_odone s) (b_cdone s) (b_creq s) (b_rd s) (b_inrd s) (b_xmit s) (b_inx s) (b_redo s) (b_canw s) (b_err s) (b_operr s) (b_dpend s) (b_dread s) (b_dwrite s) (b_dopen s) (b_dclose s) (b_tpend s) (b_ll s) (b_tm s) (b_dr s) (b_clean s) (b_fr s) (b_usr s) (b_ucl s) v (b_lost s) (b_tr s).
Definition set_lost (v : nat) (s : bd) : bd :=
  mkbd (b_or s) (b_st s) (b_ref s) (b_live s) (b_odone s) (b_cdone s) (b_creq s) (b_rd s) (b_inrd s) (b_xmit s) (b_inx s) (b_redo s) (b_canw s) (b_err s) (b_operr s) (b_dpend s) (b_dread s) (b_dwrite s) (b_dopen s) (b_dclose s) (b_tpend s) (b_ll s) (b_tm s) (b_dr s) (b_clean s) (b_fr s) (b_usr s) (b_ucl s) (b_opened s) v (b_tr s).
Definition set_tr (v : list obs) (s : bd) : bd :=
  mkbd (b_or s) (b_st s) (b_ref s) (b_live s) (b_odone s) (b_cdone s) (b_creq s) (b_rd s) (b_inrd s) (b_xmit s) (b_inx s) (b_redo s) (b_canw s) (b_err s) (b_operr s) (b_dpend s) (b_dread s) (b_dwrite s) (b_dopen s) (b_dclose s) (b_tpend s) (b_ll s) (b_tm s) (b_dr s) (b_clean s) (b_fr s) (b_usr s) (b_ucl s) (b_opened s) (b_lost s) v.

(** ** Outcomes *)

(** A step ends well, or by a failed assertion or the use of freed memory
    ([Bad]), or the environment did what it is assumed not to do ([Ill]). *)
Inductive out (A : Type) := Ok (a : A) (s : bd) | Bad | Ill.
Arguments Ok {A}. Arguments Bad {A}. Arguments Ill {A}.
Definition bindo {A B} (o : out A) (k : A -> bd -> out B) : out B :=
  match o with Ok a s => k a s | Bad => Bad | Ill => Ill end.
Notation "'dos' s <- o ;; k" := (bindo o (fun _ s => k)) (at level 61, s name, o at next level, right associativity).
Notation "'dov' a , s <- o ;; k" := (bindo o (fun a s => k)) (at level 61, a name, s name, o at next level, right associativity).
Definition ok (s : bd) : out unit := Ok tt s.

(** The drain timeout of the object, and what the environment may do beyond the
    usual: report the end of disconnecting after the write of its data failed;
    report a timeout error when the object has meanwhile been closed; let the
    filter refuse an open whose lower layer opened at once; close an object again
    before the stop of its old drain timer was reported; use gensio_open_nochild;
    enable callbacks while not open. *)
Record bcfg := mkbc { c_drain : Z; c_dbl : bool; c_late : bool; c_imm : bool; c_slow : bool; c_nochild : bool; c_enany : bool }.

(** the next answer of the environment; a boolean one is true when not zero *)
Definition ask (s : bd) : out Z := match b_or s with [] => Ok 0 s | x :: r => Ok x (set_or r s) end.
Definition askb (s : bd) : out bool := dov x, s <- ask s ;; Ok (negb (x =? 0)) s.

Definition closedst (t : bst) : bool := match t with B_CLOSED => true | _ => false end.
Definition emit (o : obs) (s : bd) : bd := set_tr (o :: b_tr s) s.
Definition add_frame (k : fkind) (c : bool) (s : bd) : bd := set_fr ((k, c) :: b_fr s) s.

(** basen_ref, :275-281 *)
Definition bref (s : bd) : out unit := if b_ref s <=? 0 then Bad else ok (set_ref (b_ref s + 1) s).
(** basen_deref, :296-303 *)
Definition bderef (s : bd) : out unit := if b_ref s <=? 1 then Bad else ok (set_ref (b_ref s - 1) s).
(** basen_deref_and_unlock and basen_finish_free, :254-272, 306-316 *)
Definition bderef_unlock (s : bd) : out unit :=
  if b_ref s <=? 0 then Bad
  else let s := set_ref (b_ref s - 1) s in
       ok (if b_ref s =? 0 then emit OFreed (set_live false s) else s).

(** basen_start_timer, :319-324.  A timer that runs or is being stopped is
    refused (sel_start_timer, os_unix_selector.c:946-975). *)
Definition start_timer (s : bd) : out unit :=
  match b_tm s with TIdle => bref (set_tm TRun s) | _ => ok s end.
(** basen_stop_timer, :326-331.  Stopping one that does not run fails. *)
Definition stop_timer (s : bd) : out unit :=
  match b_tm s with TRun => bderef (set_tm TIdle s) | _ => ok s end.
(** stop_timer_with_done on each timer, :686-697, 951-968 *)
Definition stop_done (t : tst) : tst := match t with TRun => TStopping | t => t end.
Definition stop_timer_done (s : bd) : bd := set_tm (stop_done (b_tm s)) s.
Definition stop_drain_done (s : bd) : bd := set_dr (stop_done (b_dr s)) s.
(** basen_start_drain_timer, :677-684 *)
Definition start_drain (c : bcfg) (s : bd) : out unit :=
  match b_dr s with
  | TIdle => bref (set_dr TRun s)
  | TRun => Bad
  | TStopping => if c_slow c then Bad else Ill
  end.

(** basen_sched_deferred_op, :1100-1108.  The runner is queued exactly while
    deferred_op_pending. *)
Definition sched (s : bd) : out unit :=
  if b_dpend s then ok s else bref (set_dpend true s).
Definition sched_close (s : bd) : out unit := sched (set_dclose true s).

(** ll_close, :552-560: the layer below accepts it while opening or open, and
    reports the end later; it refuses a second one. *)
Definition ll_close (s : bd) : out Z :=
  match b_ll s with LLOpening | LLOpen => Ok 0 (set_ll LLClosing s) | _ => Ok GE_NOTREADY s end.

(** basen_set_ll_enables, :574-620: only the part that changes the object *)
Definition set_enables (s : bd) : out unit :=
  if closedst (b_st s) || negb (b_err s =? 0) then ok s
  else if b_inrd s then ok s
  else match b_st s with
       | B_OPEN => dov p, s <- askb s ;; if p && b_rd s then sched (set_dread true s) else ok s
       | _ => ok s
       end.

(** filter_ul_write with basen_write_data_handler, :440-450, 622-639 *)
Definition ul_write (s : bd) : out Z :=
  dov e, s <- ask s ;; dov f, s <- askb s ;; Ok e (if f then set_canw false s else s).
(** filter_ll_write_pending, :372-378.  A filter that has been cleaned up has
    nothing to write. *)
Definition pending (s : bd) : out bool := dov p, s <- askb s ;; Ok (p && negb (b_clean s)) s.

(** basen_close_from_wait_drain, :829-842 *)
Definition to_ll_close (s : bd) : out unit :=
  dov rv, s <- ll_close (set_st B_LL_CLOSE s) ;; if rv =? 0 then ok s else sched_close s.

(** i_handle_ioerr, :844-922 *)
Definition handle_ioerr (e : Z) (s : bd) : out unit :=
  if e =? 0 then Bad
  else if negb (b_err s =? 0) then ok s
  else let s := set_canw true (set_operr e (set_err e s)) in
       match b_st s with
       | B_CLOSED | B_LL_OPEN | B_IO_ERR => Bad
       | B_FILTER_OPEN =>
           dov rv, s <- ll_close (set_st B_LL_IO_ERR s) ;; ok (if rv =? 0 then s else set_st B_IO_ERR s)
       | B_OPEN =>
           dos s <- sched (set_dwrite true (set_dread true s)) ;;
           dov rv, s <- ll_close (set_st B_LL_IO_ERR s) ;; ok (if rv =? 0 then s else set_st B_IO_ERR s)
       | B_DRAIN => to_ll_close (stop_drain_done s)
       | B_FILTER_CLOSE => to_ll_close s
       | B_LL_CLOSE | B_LL_IO_ERR => ok s
       end.

(** basen_filter_ul_push without the last part, :641-660: the error, and
    whether anything was written *)
Definition push0 (s : bd) : out (Z * bool) :=
  if (b_err s =? 0) && b_canw s then
    dov p, s <- pending s ;;
    if p then
      dov e, s <- ul_write s ;;
      if e =? 0 then Ok (0, true) s else dos s <- handle_ioerr e s ;; Ok (e, true) s
    else Ok (0, false) s
  else Ok (0, false) s.

Definition unfin (e : Z) : bool := (e =? GE_INPROGRESS) || (e =? GE_RETRY).

(** basen_filter_try_connect, :1110-1156.  filter_check_open_done may say
    anything. *)
Definition connect_end (e : Z) (s : bd) : out Z :=
  dos s <- set_enables s ;;
  if e =? GE_INPROGRESS then Ok GE_INPROGRESS s
  else dos s <- stop_timer s ;;
       if e =? GE_RETRY then dos s <- start_timer s ;; Ok GE_INPROGRESS s
       else ask s.
Definition try_connect (s : bd) : out Z :=
  dov e1, s <- ask s ;;
  if unfin e1 then
    dov r, s <- push0 s ;;
    if negb (fst r =? 0) then Ok (fst r) s
    else dov e2, s <- ask s ;;
         if negb (e2 =? 0) && negb (unfin e2) then Ok e2 s
         else connect_end (if e2 =? GE_INPROGRESS then e1 else e2) s
  else if e1 =? 0 then connect_end e1 s else Ok e1 s.

(** basen_filter_try_connect_finish, :1158-1172 *)
Definition connect_finish (s : bd) : out unit :=
  dov e, s <- try_connect s ;;
  if e =? 0 then sched (set_dopen true (set_st B_OPEN s))
  else if e =? GE_INPROGRESS then ok s
  else handle_ioerr e s.

(** basen_filter_try_close, :1316-1348.  An error of the push there is not
    looked at. *)
Definition close_end (c : bcfg) (e : Z) (s : bd) : out unit :=
  if e =? GE_INPROGRESS then ok s
  else if e =? GE_RETRY then dos s <- stop_timer s ;; start_timer s
  else match b_st s with
       | B_FILTER_CLOSE => to_ll_close s
       | _ => if c_dbl c then to_ll_close s else Ill
       end.
Definition try_close (c : bcfg) (s : bd) : out unit :=
  dov e1, s <- ask s ;;
  if unfin e1 then
    dov r, s <- push0 s ;;
    dov e, s <- (if e1 =? GE_INPROGRESS then ask s else Ok e1 s) ;;
    dos s <- set_enables s ;;
    close_end c e s
  else close_end c e1 s.

(** The beginning of basen_finish_close, :928-943: [true] when it goes on to
    close. *)
Definition close_head (s : bd) : out bool :=
  if b_inx s then Bad
  else if b_dpend s then Ok false (set_dclose true s)
  else if b_inrd s then Bad
  else Ok true s.
(** :944-945 *)
Definition close_mid (s : bd) : bd :=
  set_st B_CLOSED (set_clean true (if b_odone s then set_lost (S (b_lost s)) s else s)).
(** The end of it, :951-969 *)
Definition close_tail (s : bd) : out unit := bderef (stop_drain_done (stop_timer_done s)).

(** basen_check_open_close_ops, :1656-1678: [true] when basen_finish_close goes
    on to close. *)
Definition check_ops (c : bcfg) (s : bd) : out bool :=
  if b_dclose s then
    if b_inx s || b_inrd s then Ok false s
    else close_head (set_dclose false s)
  else
    dos s <- (match b_st s with B_FILTER_OPEN => connect_finish s | _ => ok s end) ;;
    dos s <- (match b_st s with B_FILTER_CLOSE => try_close c s | _ => ok s end) ;;
    match b_st s with
    | B_DRAIN =>
        dov q, s <- askb s ;;
        if q then Ok false s
        else dos s <- try_close c (set_st B_FILTER_CLOSE (stop_drain_done s)) ;; Ok false s
    | _ => Ok false s
    end.

(** basen_filter_ul_push with check_open_close, :641-660 *)
Definition push1 (c : bcfg) (s : bd) : out bool :=
  dov r, s <- push0 s ;;
  if snd r && (fst r =? 0) then check_ops c s else Ok false s.
(** The same in places where basen_finish_close is never reached: not modelled
    further, and [Bad], so that it is proved that it is not reached. *)
Definition push1_no (c : bcfg) (s : bd) : out unit := dov w, s <- push1 c s ;; if w then Bad else ok s.
Definition check_no (c : bcfg) (s : bd) : out unit := dov w, s <- check_ops c s ;; if w then Bad else ok s.

(** :758-766 and :1010-1017 *)
Definition deliver (t : bst) : bool := match t with B_OPEN | B_LL_IO_ERR | B_IO_ERR => true | _ => false end.
Definition wcb := deliver.
(** basen_in_read_callbackable_state, :999-1008 *)
Definition rcb (t : bst) : bool :=
  match t with B_OPEN | B_DRAIN | B_LL_IO_ERR | B_LL_CLOSE | B_FILTER_CLOSE | B_IO_ERR => true | _ => false end.

(** the condition of the loops that call WRITE_READY, :1069-1071, 1752-1754,
    1814-1816 *)
Definition wcond (s : bd) : out bool :=
  if wcb (b_st s) then dov w, s <- askb s ;; Ok ((w || negb (b_err s =? 0)) && b_xmit s) s else Ok false s.

(** The end of basen_timeout, :1488-1490, which is also that of
    basen_deferred_op, :1093-1097, when the state is not CLOSED: push, enables,
    deref.  The push may lead to basen_finish_close. *)
Definition t_last (s : bd) : out unit := dos s <- set_enables s ;; bderef_unlock s.
Definition t_end (c : bcfg) (s : bd) : out unit :=
  dov w, s <- push1 c s ;;
  if (w : bool) then
    let s := close_mid s in
    if b_cdone s then ok (add_frame FTClose false s)
    else dos s <- close_tail s ;; t_last s
  else t_last s.
(** ** basen_deferred_op, :1019-1098 *)

Definition d_end (c : bcfg) (s : bd) : out unit :=
  if closedst (b_st s) then bderef_unlock s else t_end c s.
Definition d_close (c : bcfg) (s : bd) : out unit :=
  if b_dclose s && negb (b_inx s || b_inrd s) then
    dov w, s <- close_head (set_dclose false s) ;;
    if (w : bool) then
      let s := close_mid s in
      if b_cdone s then ok (add_frame FDClose false s)
      else dos s <- close_tail s ;; d_end c s
    else d_end c s
  else d_end c s.
Definition d_wloop (c : bcfg) (s : bd) : out unit :=
  dov w, s <- wcond s ;;
  if (w : bool) then ok (add_frame FDWrite false s) else d_close c (set_inx false s).
Definition d_write (c : bcfg) (s : bd) : out unit :=
  if b_dwrite s then
    let s := set_dwrite false s in
    if b_inx s then d_close c s else d_wloop c (set_inx true s)
  else d_close c s.
Definition d_read_body (s : bd) : out unit :=
  if b_err s =? 0 then ok (add_frame FDRead false s)
  else dov p, s <- askb s ;;
       ok (if p then add_frame FDRead false s else add_frame FDReadErr false (set_rd false s)).
Definition d_read (c : bcfg) (s : bd) : out unit :=
  if b_dread s && negb (b_inrd s) && b_rd s then d_read_body (set_inrd true (set_dread false s))
  else d_write c s.
(** basen_finish_open, :972-992 *)
Definition finish_open (k : fkind) (e : Z) (s : bd) : out unit :=
  dos s <- (if e =? 0 then
              match b_st s with
              | B_FILTER_OPEN | B_OPEN =>
                  let s := set_opened true (set_st B_OPEN s) in if b_tpend s then start_timer s else ok s
              | _ => Bad
              end
            else ok s) ;;
  if b_odone s then ok (add_frame k false (set_odone false s)) else Bad.
Definition d_start (c : bcfg) (s : bd) : out unit :=
  let s := set_dpend false s in
  if b_dopen s then finish_open (FDOpen (b_operr s)) (b_operr s) (set_dopen false s)
  else d_read c s.
(** after the user or filter returned [e] in the read loop, :1053-1060 *)
Definition d_read_ret (c : bcfg) (e : Z) (s : bd) : out unit :=
  if e =? 0 then
    dov more, s <- (if b_rd s then (if b_err s =? 0 then askb s else Ok true s) else Ok false s) ;;
    if (more : bool) then d_read_body s else d_read c (set_inrd false s)
  else dos s <- handle_ioerr e s ;; d_read c (set_inrd false s).
(** after WRITE_READY returned [e], :1075-1081 *)
Definition d_write_ret (c : bcfg) (e : Z) (s : bd) : out unit :=
  if e =? 0 then
    dov w, s <- wcond s ;;
    if (w : bool) then ok (add_frame FDWrite false s) else d_write c (set_inx false s)
  else dos s <- handle_ioerr e s ;; d_write c (set_inx false s).

(** ** basen_ll_read, :1680-1776 *)

Definition l_end (s : bd) : out unit := dos s <- set_enables s ;; bderef_unlock s.
Definition l_outer (s : bd) : out unit :=
  dov more, s <- askb s ;;
  dov need, s <- (if b_rd s then Ok true s else askb s) ;;
  if more && need then
    if b_inrd s then bderef_unlock s
    else ok (add_frame FLRead false (set_inrd true s))
  else l_end s.
Definition l_wloop (s : bd) : out unit :=
  dov w, s <- wcond s ;; if (w : bool) then ok (add_frame FLReadW false s) else l_outer s.
Definition l_read (c : bcfg) (readerr : Z) (s : bd) : out unit :=
  dos s <- bref s ;;
  if negb (readerr =? 0) then dos s <- handle_ioerr readerr s ;; l_end s
  else if negb (b_err s =? 0) then l_end s
  else l_outer s.
Definition l_read_ret (c : bcfg) (e : Z) (s : bd) : out unit :=
  if negb (b_err s =? 0) || negb (e =? 0) then
    let s := set_inrd false s in
    dos s <- (if negb (e =? 0) && (b_err s =? 0) then handle_ioerr e s
              else if b_dread s then sched s else ok s) ;;
    l_end s
  else
    dov more, s <- askb s ;;
    if b_rd s && more then ok (add_frame FLRead false s)
    else dos s <- push1_no c (set_inrd false s) ;;
         dos s <- check_no c s ;;
         l_wloop s.
Definition l_write_ret (e : Z) (s : bd) : out unit :=
  if e =? 0 then l_wloop s else dos s <- handle_ioerr e s ;; l_outer s.

(** ** basen_ll_write_ready, :1778-1843 *)

Definition w_out (s : bd) : out unit :=
  dos s <- set_enables s ;;
  let s := set_inx false s in
  dos s <- (if b_dwrite s then sched s else ok s) ;;
  bderef_unlock s.
(** from the label retry to the loop; [true] for goto out_setnotready *)
Definition w_body (c : bcfg) (s : bd) : out bool :=
  dov p, s <- pending s ;;
  dov e, s <- (if (p : bool) then ul_write s else Ok 0 s) ;;
  if e =? 0 then dos s <- push1_no c s ;; dos s <- check_no c s ;; Ok false s
  else dos s <- handle_ioerr e s ;; Ok true s.
(** the loop and what follows when redo_xmit_ready is not set *)
Definition w_loop2 (s : bd) : out unit :=
  dov w, s <- wcond s ;; if (w : bool) then ok (add_frame FLWrite false s) else w_out s.
(** the same with redo_xmit_ready, which is set only while the lock is free, so
    one more turn is all there can be *)
Definition w_loop (c : bcfg) (s : bd) : out unit :=
  dov w, s <- wcond s ;;
  if (w : bool) then ok (add_frame FLWrite false s)
  else if b_redo s then
    let s := set_redo false s in
    dov again, s <- (if b_xmit s then Ok true s else pending s) ;;
    if (again : bool) then dov stop, s <- w_body c s ;; if (stop : bool) then w_out s else w_loop2 s
    else w_out s
  else w_out s.
Definition l_write_ready (c : bcfg) (s : bd) : out unit :=
  dos s <- bref s ;;
  if negb (b_err s =? 0) then bderef_unlock s
  else if b_inx s then bderef_unlock (set_redo true s)
  else
    dov stop, s <- w_body c (set_inx true (set_canw true s)) ;;
    if (stop : bool) then w_out s else w_loop c s.
Definition w_ret (c : bcfg) (e : Z) (s : bd) : out unit :=
  if e =? 0 then w_loop c s else dos s <- handle_ioerr e s ;; w_out s.

(** ** basen_timeout, :1460-1491 *)

Definition timeout (c : bcfg) (s : bd) : out unit :=
  match b_st s with
  | B_FILTER_OPEN => dos s <- connect_finish s ;; t_end c s
  | B_FILTER_CLOSE => dos s <- try_close c s ;; t_end c s
  | B_OPEN | B_DRAIN => ok (add_frame FTimeout true s)
  | _ => t_end c s
  end.
Definition timeout_ret (c : bcfg) (e : Z) (s : bd) : out unit :=
  if e =? 0 then t_end c s
  else if negb (c_late c) && (b_err s =? 0) && match b_st s with B_CLOSED | B_LL_OPEN => true | _ => false end then Ill
  else dos s <- handle_ioerr e s ;; t_end c s.
(** basen_drain_timeout, :1493-1502 *)
Definition drain_timeout (s : bd) : out unit :=
  dos s <- (match b_st s with B_DRAIN => to_ll_close s | _ => ok s end) ;; bderef_unlock s.

(** ** Calls from the layer below *)

(** basen_ll_close_done, :514-550 *)
Definition ll_close_done (s : bd) : out unit :=
  match b_st s with
  | B_LL_CLOSE | B_IO_ERR => sched_close s
  | B_LL_IO_ERR =>
      let s := set_st B_IO_ERR s in
      if b_odone s then sched (set_dopen true s) else ok s
  | _ => Bad
  end.
(** basen_ll_open_done, :1174-1205; the second part is what follows the call of
    open_done *)
Definition ll_open_done (c : bcfg) (e : Z) (s : bd) : out unit :=
  dos s <- bref s ;;
  if negb (b_err s =? 0) || negb (b_operr s =? 0) then bderef_unlock s
  else if negb (e =? 0) then finish_open (FOpenErr e) e (set_st B_CLOSED s)
  else dos s <- connect_finish (set_st B_FILTER_OPEN s) ;;
       dos s <- set_enables s ;; bderef_unlock s.
Definition open_err_ret (s : bd) : out unit := dos s <- bderef s ;; bderef_unlock s.

(** ** Calls from the user *)

(** what basen_open and basen_open_nochild reset, :1218-1232, 1275-1286 *)
Definition open_reset (s : bd) : bd :=
  set_opened false (set_odone true (set_tpend false (set_xmit false (set_rd false (set_dclose false (set_dopen false
    (set_dwrite false (set_dread false (set_inrd false (set_operr 0 (set_err 0 s))))))))))).
(** what both do when the lower layer is open, :1239-1249, 1290-1299; the result
    is that of the call *)
Definition open_filter (s : bd) : out Z :=
  dov e, s <- try_connect (set_st B_FILTER_OPEN s) ;;
  if e =? 0 then dos s <- sched (set_dopen true (set_st B_OPEN s)) ;; Ok 0 s
  else if e =? GE_INPROGRESS then Ok 0 s else Ok e s.
(** :1253-1256, 1300-1303 *)
Definition open_result (c : bcfg) (e : Z) (s : bd) : out unit :=
  if e =? 0 then dos s <- bref s ;; ok (emit OUOpen s)
  else ok (set_st B_CLOSED s).
(** basen_open, :1207-1262.  ll_open answers 0, GE_INPROGRESS or an error. *)
Definition uopen (c : bcfg) (s : bd) : out unit :=
  if closedst (b_st s) then
    dov e, s <- ask s ;;
    if e =? 0 then
      let s := set_creq false (set_canw false (open_reset (set_clean false s))) in
      let s := set_st B_LL_OPEN s in
      dov e, s <- ask s ;;
      if e =? 0 then
        dov e, s <- open_filter (set_ll LLOpen s) ;;
        if negb (e =? 0) && negb (c_imm c) then Ill else open_result c e s
      else if e =? GE_INPROGRESS then open_result c 0 (set_ll LLOpening s)
      else open_result c e s
    else ok s
  else ok s.
(** basen_open_nochild, :1264-1314: the layer below is open already *)
Definition uopen_nochild (c : bcfg) (s : bd) : out unit :=
  if closedst (b_st s) then
    dov e, s <- ask s ;;
    if e =? 0 then
      dov e, s <- open_filter (open_reset (set_clean false (set_ll LLOpen s))) ;;
      dos s <- open_result c e s ;; set_enables s
    else ok s
  else ok s.
(** basen_i_close, :1350-1386 *)
Definition i_close (c : bcfg) (cb : bool) (s : bd) : out unit :=
  let s := set_operr GE_LOCALCLOSED (set_cdone cb (set_xmit false (set_rd false s))) in
  dos s <- (match b_st s with
            | B_LL_OPEN | B_FILTER_OPEN => to_ll_close s
            | _ =>
                dov q, s <- askb s ;;
                if q && negb (c_drain c =? 0) then
                  let s := set_st B_DRAIN s in
                  if 0 <? c_drain c then start_drain c s else ok s
                else try_close c (set_st B_FILTER_CLOSE s)
            end) ;;
  set_enables s.
(** basen_close, :1388-1420 *)
Definition uclose (c : bcfg) (cb : bool) (s : bd) : out unit :=
  if b_creq s then ok s
  else
    let s := set_creq true s in
    let did s := emit (OUClose cb) (set_ucl cb s) in
    match b_st s with
    | B_OPEN | B_FILTER_OPEN | B_LL_OPEN => i_close c cb (did s)
    | B_LL_IO_ERR => ok (set_st B_LL_CLOSE (set_cdone cb (did s)))
    | B_IO_ERR => sched_close (set_cdone cb (did s))
    | _ => ok s
    end.
(** basen_free, :1422-1458 *)
Definition ufree (c : bcfg) (s : bd) : out unit :=
  let s := emit OUFree (set_usr false s) in
  dos s <- (match b_st s with
            | B_CLOSED => ok s
            | B_LL_OPEN | B_FILTER_OPEN | B_OPEN => i_close c false s
            | B_LL_IO_ERR => ok (set_st B_LL_CLOSE (set_cdone false s))
            | B_IO_ERR => sched_close (set_cdone false s)
            | _ => ok (set_cdone false s)
            end) ;;
  bderef_unlock s.
(** basen_write, :699-762 *)
Definition uwrite (s : bd) : out unit :=
  dos s <- (match b_st s with
            | B_OPEN =>
                if b_err s =? 0 then
                  dov e, s <- ul_write s ;; if e =? 0 then ok s else handle_ioerr e s
                else ok s
            | _ => ok s
            end) ;;
  set_enables s.
(** basen_set_read_callback_enable, :1504-1537 *)
Definition uset_read (b : bool) (s : bd) : out unit :=
  if Bool.eqb (b_rd s) b then ok s
  else if negb (rcb (b_st s)) then ok s
  else
    let s := set_rd b s in
    dov p, s <- askb s ;;
    if b_dpend s && b then ok (set_dread true s)
    else if b && (p || negb (b_err s =? 0)) && deliver (b_st s) then sched (set_dread true s)
    else set_enables s.
(** basen_set_write_callback_enable, :1539-1557 *)
Definition uset_write (b : bool) (s : bd) : out unit :=
  if Bool.eqb (b_xmit s) b then ok s
  else if negb (wcb (b_st s)) then ok s
  else
    let s := set_xmit b s in
    dov w, s <- askb s ;;
    if b && (w || negb (b_err s =? 0)) then sched (set_dwrite true s) else ok s.

(** ** Steps *)

(** The steps: calls of the user; calls of the layer below; timers, their stop
    reported, the runner; calls of the filter (OPEN_DONE, INPUT_READY,
    OUTPUT_READY, START_TIMER, STOP_TIMER, gensio_base.c:1863-1925); the user's
    function of frame [i] is entered; basen_read_data_handler in frame [i]; the
    frame goes on. *)
Inductive bev := UOpen | UOpenNC | UClose (cb : bool) | UFree | UWrite | USetRead (b : bool) | USetWrite (b : bool)
  | EOpenDone (e : Z) | ECloseDone | ELRead (e : Z) | ELWrite
  | ETimer | EDrain | ETStopped | EDStopped | ERun
  | EFOpenDone | EFInput | EFOutput | EFStart | EFStop
  | ECall (i : nat) | EHandler (i : nat) | ERet (i : nat).

Definition is_ll_frame (k : fkind) : bool := match k with FLRead | FLReadW | FLWrite => true | _ => false end.
Definition ll_up (l : llst) : bool := match l with LLOpen | LLClosing => true | _ => false end.
Definition drop_nth (i : nat) (l : list (fkind * bool)) : list (fkind * bool) := firstn i l ++ skipn (S i) l.
(** the frame [i] goes away or changes its flag *)
Definition take_frame (i : nat) (s : bd) : bd := set_fr (drop_nth i (b_fr s)) s.
Definition set_flag (i : nat) (k : fkind) (v : bool) (s : bd) : bd := set_fr ((k, v) :: drop_nth i (b_fr s)) s.

(** memory that was given back is touched *)
Definition alive (s : bd) (o : out unit) : out unit := if b_live s then o else Bad.
(** what the environment is assumed not to do *)
Definition req (b : bool) (o : out unit) : out unit := if b then o else Ill.

(** what frame (k, f) does when the user's function is entered *)
Definition enter (i : nat) (k : fkind) (f : bool) (s : bd) : out unit :=
  match k, f with
  | FOpenErr e, false | FDOpen e, false =>
      ok (emit (OOpenDone e) (set_flag i k true s))
  | FDReadErr, false => ok (emit ORead (set_flag i k true s))
  | FDWrite, false | FLReadW, false | FLWrite, false => ok (emit OWrite (set_flag i k true s))
  | FDClose, false | FTClose, false => ok (emit OCloseDone (set_flag i k true (set_ucl false s)))
  | FDRead, true | FLRead, true => ok (emit ORead (set_flag i k false s))
  | _, _ => Ill
  end.
(** what it does when that, or the filter, returned *)
Definition frame_ret (c : bcfg) (k : fkind) (f : bool) (e : Z) (s : bd) : out unit :=
  match k, f with
  | FOpenErr _, true => open_err_ret s
  | FDOpen _, true => d_read c s
  | FDReadErr, true => d_read_ret c e s
  | FDRead, false => d_read_ret c e s
  | FDWrite, true => d_write_ret c e s
  | FDClose, true => dos s <- close_tail s ;; d_end c s
  | FTClose, true => dos s <- close_tail s ;; t_last s
  | FLRead, false => l_read_ret c e s
  | FLReadW, true => l_write_ret e s
  | FLWrite, true => w_ret c e s
  | FTimeout, true => timeout_ret c e s
  | _, _ => Ill
  end.

Definition bstep (c : bcfg) (e : bev) (s : bd) : out unit :=
  match e with
  | UOpen => req (b_usr s && negb (b_ucl s)) (alive s (uopen c s))
  | UOpenNC => req (b_usr s && negb (b_ucl s) && c_nochild c) (alive s (uopen_nochild c s))
  | UClose cb => req (b_usr s) (alive s (uclose c cb s))
  | UFree => req (b_usr s) (alive s (ufree c s))
  | UWrite => req (b_usr s) (alive s (uwrite s))
  | USetRead b => req (b_usr s && (negb b || c_enany c || b_opened s && negb (b_creq s))) (alive s (uset_read b s))
  | USetWrite b => req (b_usr s && (negb b || c_enany c || b_opened s && negb (b_creq s))) (alive s (uset_write b s))
  | EOpenDone e =>
      match b_ll s with
      | LLOpening => alive s (ll_open_done c e (set_ll (if e =? 0 then LLOpen else LLClosed) s))
      | LLClosing => alive s (ll_open_done c e s)
      | _ => Ill
      end
  | ECloseDone =>
      match b_ll s with
      | LLClosing =>
          req (negb (existsb (fun k => is_ll_frame (fst k)) (b_fr s)))
              (alive s (ll_close_done (set_ll LLClosed s)))
      | _ => Ill
      end
  | ELRead e => req (ll_up (b_ll s)) (alive s (l_read c e s))
  | ELWrite => req (ll_up (b_ll s)) (alive s (l_write_ready c s))
  | ETimer => match b_tm s with TRun => alive s (timeout c (set_tm TIdle s)) | _ => Ill end
  | EDrain => match b_dr s with TRun => alive s (drain_timeout (set_dr TIdle s)) | _ => Ill end
  | ETStopped => match b_tm s with TStopping => alive s (bderef_unlock (set_tm TIdle s)) | _ => Ill end
  | EDStopped => match b_dr s with TStopping => alive s (bderef_unlock (set_dr TIdle s)) | _ => Ill end
  | ERun => req (b_dpend s) (alive s (d_start c s))
  | EFOpenDone =>
      req (b_live s)
        (match b_st s with B_FILTER_OPEN => dos s <- connect_finish s ;; set_enables s | _ => ok s end)
  | EFInput => req (b_live s) (set_enables s)
  | EFOutput => req (b_live s) (ok (set_canw false s))
  | EFStart =>
      req (b_live s) (match b_st s with B_OPEN | B_DRAIN => start_timer s | _ => ok (set_tpend true s) end)
  | EFStop => req (b_live s) (match b_st s with B_OPEN | B_DRAIN => stop_timer s | _ => ok s end)
  | ECall i =>
      match nth_error (b_fr s) i with Some (k, f) => alive s (enter i k f s) | None => Ill end
  | EHandler i =>
      match nth_error (b_fr s) i with
      | Some (FDRead as k, false) | Some (FLRead as k, false) =>
          alive s (if deliver (b_st s) && b_rd s then ok (set_flag i k true s) else ok s)
      | _ => Ill
      end
  | ERet i =>
      match nth_error (b_fr s) i with
      | Some (k, f) => alive s (dov e, s <- ask (take_frame i s) ;; frame_ret c k f e s)
      | None => Ill
      end
  end.

(** A run: each step comes with the answers of the environment during it. *)
Fixpoint brun (c : bcfg) (es : list (bev * list Z)) (s : bd) : out unit :=
  match es with
  | [] => ok s
  | (e, o) :: es => dos s <- bstep c e (set_or o s) ;; brun c es s
  end.

(** gensio_i_alloc for a client, :1960-2035 *)
Definition binit : bd :=
  mkbd [] B_CLOSED 1 true false false false false false false false false false 0 0
       false false false false false false LLClosed TIdle TIdle false [] true false false 0 [].
