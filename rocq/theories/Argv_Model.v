(** Model of the argument vectors of lib/utils.c on a memory of allocated
    blocks: append, copy, free, and the conversion of strings. *)
From Verif Require Import Base Mem_Model Cstr_Model.
Open Scope nat_scope.

Inductive err := EInval | ENomem.

(** *argv, *args, *argc *)
Record vec := mkvec { vc_ptr : option nat; vc_args : nat; vc_argc : nat }.

(** the arguments str, len and allocstr of gensio_argv_nappend *)
Inductive src :=
| SNull
| SOwn (p : nat)            (* allocstr false *)
| SCopy (t : list Z).       (* allocstr true: the len bytes at str *)

(** The first part of gensio_argv_nappend, lib/utils.c:105-123: allocate the
    vector, or make it larger so that there is room for one more string and the
    ending NULL.  The result also has the changes made before an error. *)
Definition argv_room (f : nat -> bool) (m : mem) (v : vec) : option (mem * vec * option err) :=
  match vc_ptr v with
  | None =>
      match zalloc f m (BPtrs (repeat None 10)) with
      | (m, None) => Some (m, mkvec None 10 0, Some ENomem)
      | (m, Some p) => Some (m, mkvec (Some p) 10 0, None)
          (* the test that follows is false: 0 + 1 < 10 *)
      end
  | Some p =>
      if vc_args v <=? vc_argc v + 1 then
        match zalloc f m (BPtrs (repeat None (vc_args v + 10))) with
        | (m, None) => Some (m, v, Some ENomem)
        | (m, Some q) =>
            l <- load_ptrs m p ;;
            d <- mread l 0 (vc_args v) ;;
            l' <- load_ptrs m q ;;
            l' <- mwrite l' 0 d ;;
            m <- store m q (BPtrs l') ;;
            m <- mfree m p ;;
            Some (m, mkvec (Some q) (vc_args v + 10) (vc_argc v), None)
        end
      else Some (m, v, None)
  end.

(** ( *argv )[ *argc ] = x *)
Definition argv_put (m : mem) (v : vec) (x : option nat) (argc : nat)
  : option (mem * vec * option err) :=
  p <- vc_ptr v ;;
  l <- load_ptrs m p ;;
  l <- mset l (vc_argc v) x ;;
  m <- store m p (BPtrs l) ;;
  Some (m, mkvec (Some p) (vc_args v) argc, None).

(** gensio_argv_nappend, lib/utils.c:99-139 *)
Definition argv_nappend (f : nat -> bool) (m : mem) (v : vec) (s : src)
  : option (mem * vec * option err) :=
  ' (m, v, e) <- argv_room f m v ;;
  match e with
  | Some e => Some (m, v, Some e)
  | None =>
      match s with
      | SNull => argv_put m v None (vc_argc v)
      | SOwn q => argv_put m v (Some q) (S (vc_argc v))
      | SCopy t =>
          match zalloc f m (BBytes (t ++ [0%Z])) with
          | (m, None) => Some (m, v, Some ENomem)
          | (m, Some q) => argv_put m v (Some q) (S (vc_argc v))
          end
      end
  end.

(** gettok, lib/utils.c:654-689, with the allocation of the token.
    Simplification: the token is allocated with its final contents (that both
    passes fit in it is [Cstr_Model.scan]). *)
Definition gettok (f : nat -> bool) (m : mem) (seps ends s : list Z)
  : option (mem * (err + option nat * list Z)) :=
  r <- get_tok 1 seps ends s ;;
  match r with
  | None => Some (m, inl EInval)
  | Some (None, rest) => Some (m, inr (None, rest))
  | Some (Some t, rest) =>
      match zalloc f m (BBytes t) with
      | (m, None) => Some (m, inl ENomem)
      | (m, Some q) => Some (m, inr (Some q, rest))
      end
  end.

(** The loop of gensio_str_to_argv_endchar and the NULL at the end,
    lib/utils.c:706-717; also returns tok.  [fuel] bounds the number of
    tokens; running out of it is [None]. *)
Fixpoint argv_loop (fuel : nat) (f : nat -> bool) (m : mem) (v : vec) (seps ends s : list Z)
  : option (mem * vec * option err * option nat * list Z) :=
  match fuel with
  | O => None
  | S fuel =>
      ' (m, r) <- gettok f m seps ends s ;;
      match r with
      | inl e => Some (m, v, Some e, None, s)
      | inr (None, rest) =>
          ' (m, v, e) <- argv_nappend f m v SNull ;;
          Some (m, v, e, None, rest)
      | inr (Some q, rest) =>
          ' (m, v, e) <- argv_nappend f m v (SOwn q) ;;
          match e with
          | Some e => Some (m, v, Some e, Some q, rest)
          | None => argv_loop fuel f m v seps ends rest
          end
      end
  end.

(** free the strings at n-1, ..., 0 of the vector p *)
Fixpoint free_strs (m : mem) (p n : nat) : option mem :=
  match n with
  | O => Some m
  | S n =>
      l <- load_ptrs m p ;;
      x <- mget l n ;;
      m <- match x with None => Some m | Some q => mfree m q end ;;
      free_strs m p n
  end.

Definition default_seps : list Z := [32; 12; 10; 13; 9; 11]%Z.

(** gensio_str_to_argv_endchar, lib/utils.c:691-738: the vector, its count and
    the rest of the string.  o->free of NULL is allowed. *)
Definition str_to_argv_endchar (f : nat -> bool) (m : mem) (seps ends s : list Z)
  : option (mem * (err + nat * nat * list Z)) :=
  ' (m, v, e, tok, rest) <- argv_loop (S (length s)) f m (mkvec None 0 0) seps ends s ;;
  match e with
  | Some e =>
      m <- match tok with None => Some m | Some q => mfree m q end ;;
      m <- match vc_ptr v with
           | None => Some m
           | Some p => m <- free_strs m p (vc_argc v) ;; mfree m p
           end ;;
      Some (m, inl e)
  | None =>
      match vc_ptr v with
      | None => None
      | Some p => Some (m, inr (p, vc_argc v, rest))
      end
  end.

(** gensio_str_to_argv, lib/utils.c:740-746 *)
Definition str_to_argv f m seps s := str_to_argv_endchar f m seps [] s.

(** gensio_scan_args, lib/utils.c:748-779: also returns what was stored in
    *args and *argc, which is a vector even for some errors. *)
Definition scan_args (f : nat -> bool) (m : mem) (s : list Z)
  : option (mem * option (nat * nat) * (err + list Z)) :=
  let none s' :=
    ' (m, r) <- str_to_argv f m [41%Z] [] ;;
    match r with
    | inl e => Some (m, None, inl e)
    | inr (p, n, _) => Some (m, Some (p, n), inr s')
    end in
  match s with
  | [] => none []
  | c :: s' =>
      if (c =? 40)%Z then
        ' (m, r) <- str_to_argv_endchar f m (default_seps ++ [44%Z]) [41%Z] s' ;;
        match r with
        | inl e => Some (m, None, inl e)
        | inr (p, n, rest) =>
            match rest with
            | [] => Some (m, Some (p, n), inl EInval)
            | d :: rest' =>
                if (d =? 41)%Z then
                  match rest' with
                  | [] => Some (m, Some (p, n), inr [])
                  | d' :: rest'' =>
                      if (d' =? 44)%Z then Some (m, Some (p, n), inr rest'')
                      else Some (m, Some (p, n), inl EInval)
                  end
                else Some (m, Some (p, n), inl EInval)
            end
        end
      else none s'
  end.

(** gensio_argv_copy, lib/utils.c:66-97: the loop stores copies from index n on;
    [Some (m, n, false)]: an allocation failed at index n. *)
Fixpoint copy_strs (f : nat -> bool) (m : mem) (p n : nat) (ss : list (list Z))
  : option (mem * nat * bool) :=
  match ss with
  | [] => Some (m, n, true)
  | s :: ss =>
      match zalloc f m (BBytes (s ++ [0%Z])) with
      | (m, None) => Some (m, n, false)
      | (m, Some q) =>
          l <- load_ptrs m p ;;
          l <- mset l n (Some q) ;;
          m <- store m p (BPtrs l) ;;
          copy_strs f m p (S n) ss
      end
  end.

Definition argv_copy (f : nat -> bool) (m : mem) (ss : list (list Z))
  : option (mem * (err + nat * nat)) :=
  match zalloc f m (BPtrs (repeat None (length ss + 1))) with
  | (m, None) => Some (m, inl ENomem)
  | (m, Some p) =>
      ' (m, n, ok) <- copy_strs f m p 0 ss ;;
      if ok then
        l <- load_ptrs m p ;;
        l <- mset l n None ;;
        m <- store m p (BPtrs l) ;;
        Some (m, inr (p, n))
      else
        m <- free_strs m p n ;;
        m <- mfree m p ;;
        Some (m, inl ENomem)
  end.

(** gensio_argv_free, lib/utils.c:185-196 *)
Fixpoint free_until_null (fuel : nat) (m : mem) (p i : nat) : option mem :=
  match fuel with
  | O => None
  | S fuel =>
      l <- load_ptrs m p ;;
      x <- mget l i ;;
      match x with
      | None => mfree m p
      | Some q => m <- mfree m q ;; free_until_null fuel m p (S i)
      end
  end.

Definition argv_free (m : mem) (p : nat) : option mem :=
  l <- load_ptrs m p ;; free_until_null (S (length l)) m p 0.

(** A user that builds a vector with gensio_argv_append (lib/utils.c:141-151,
    which passes strlen(str) as the length) and a last NULL. *)
Fixpoint append_all (f : nat -> bool) (m : mem) (v : vec) (ss : list (list Z))
  : option (mem * vec * option err) :=
  match ss with
  | [] => argv_nappend f m v SNull
  | s :: ss =>
      ' (m, v, e) <- argv_nappend f m v (SCopy s) ;;
      match e with
      | Some e => Some (m, v, Some e)
      | None => append_all f m v ss
      end
  end.

(** * Buffers with lengths *)

(** *bufv, *lens, *args, *bufc *)
Record bvec := mkbvec { bv_ptr : option nat; bv_lens : nat; bv_args : nat; bv_bufc : nat }.

(** The first part of gensio_bufv_nappend, lib/utils.c:205-239: the result of
    the second allocation when the vector grows is not checked, and NULL is
    then written to. *)
Definition bufv_room (f : nat -> bool) (m : mem) (v : bvec) : option (mem * bvec * option err) :=
  match bv_ptr v with
  | None =>
      let v := mkbvec None (bv_lens v) 10 0 in
      match zalloc f m (BPtrs (repeat None 10)) with
      | (m, None) => Some (m, v, Some ENomem)
      | (m, Some p) =>
          match zalloc f m (BNums (repeat 0 10)) with
          | (m, None) => m <- mfree m p ;; Some (m, v, Some ENomem)
          | (m, Some q) => Some (m, mkbvec (Some p) q 10 0, None)
          end
      end
  | Some p =>
      if bv_args v <=? bv_bufc v + 1 then
        match zalloc f m (BPtrs (repeat None (bv_args v + 10))) with
        | (m, None) => Some (m, v, Some ENomem)
        | (m, Some q) =>
            match zalloc f m (BNums (repeat 0 (bv_args v + 10))) with
            | (m, None) => None  (* memcpy to NULL *)
            | (m, Some k) =>
                l <- load_ptrs m p ;;
                d <- mread l 0 (bv_args v) ;;
                l' <- load_ptrs m q ;;
                l' <- mwrite l' 0 d ;;
                m <- store m q (BPtrs l') ;;
                n <- load_nums m (bv_lens v) ;;
                d <- mread n 0 (bv_args v) ;;
                n' <- load_nums m k ;;
                n' <- mwrite n' 0 d ;;
                m <- store m k (BNums n') ;;
                m <- mfree m p ;;
                m <- mfree m (bv_lens v) ;;
                Some (m, mkbvec (Some q) k (bv_args v + 10) (bv_bufc v), None)
            end
        end
      else Some (m, v, None)
  end.

(** gensio_bufv_nappend, lib/utils.c:198-256, with allocbuf false *)
Definition bufv_nappend (f : nat -> bool) (m : mem) (v : bvec) (b : option nat) (len : nat)
  : option (mem * bvec * option err) :=
  ' (m, v, e) <- bufv_room f m v ;;
  match e with
  | Some e => Some (m, v, Some e)
  | None =>
      p <- bv_ptr v ;;
      l <- load_ptrs m p ;;
      l <- mset l (bv_bufc v) b ;;
      m <- store m p (BPtrs l) ;;
      match b with
      | None => Some (m, v, None)
      | Some _ =>
          n <- load_nums m (bv_lens v) ;;
          n <- mset n (bv_bufc v) len ;;
          m <- store m (bv_lens v) (BNums n) ;;
          Some (m, mkbvec (Some p) (bv_lens v) (bv_args v) (S (bv_bufc v)), None)
      end
  end.

(** gensio_bufv_copy, lib/utils.c:268-310: when the allocation of the lengths
    fails the array of pointers is not freed. *)
Fixpoint copy_bufs (f : nat -> bool) (m : mem) (p k n : nat) (ss : list (list Z))
  : option (mem * nat * bool) :=
  match ss with
  | [] => Some (m, n, true)
  | s :: ss =>
      match zalloc f m (BBytes s) with
      | (m, None) => Some (m, n, false)
      | (m, Some q) =>
          l <- load_ptrs m p ;;
          l <- mset l n (Some q) ;;
          m <- store m p (BPtrs l) ;;
          a <- load_nums m k ;;
          a <- mset a n (length s) ;;
          m <- store m k (BNums a) ;;
          copy_bufs f m p k (S n) ss
      end
  end.

Definition bufv_copy (f : nat -> bool) (m : mem) (ss : list (list Z))
  : option (mem * (err + nat * nat * nat)) :=
  match zalloc f m (BPtrs (repeat None (length ss + 1))) with
  | (m, None) => Some (m, inl ENomem)
  | (m, Some p) =>
      match zalloc f m (BNums (repeat 0 (length ss + 1))) with
      | (m, None) => Some (m, inl ENomem)
      | (m, Some k) =>
          ' (m, n, ok) <- copy_bufs f m p k 0 ss ;;
          if ok then
            l <- load_ptrs m p ;;
            l <- mset l n None ;;
            m <- store m p (BPtrs l) ;;
            Some (m, inr (p, k, n))
          else
            m <- free_strs m p n ;;
            m <- mfree m p ;;
            m <- mfree m k ;;
            Some (m, inl ENomem)
      end
  end.

(** gensio_bufv_free, lib/utils.c:312-324 *)
Definition bufv_free (m : mem) (p k : nat) : option mem :=
  m <- argv_free m p ;; mfree m k.

(** cstr_gettok, lib/utils.c:546-583 (as [gettok], with the length) *)
Definition cstr_gettok (f : nat -> bool) (m : mem) (seps ends s : list Z)
  : option (mem * (err + option (nat * nat) * list Z)) :=
  r <- get_tok 0 seps ends s ;;
  match r with
  | None => Some (m, inl EInval)
  | Some (None, rest) => Some (m, inr (None, rest))
  | Some (Some t, rest) =>
      match zalloc f m (BBytes t) with
      | (m, None) => Some (m, inl ENomem)
      | (m, Some q) => Some (m, inr (Some (q, length t), rest))
      end
  end.

(** gensio_cstr_to_bufv_endchar, lib/utils.c:585-639 *)
Fixpoint bufv_loop (fuel : nat) (f : nat -> bool) (m : mem) (v : bvec) (seps ends s : list Z)
  : option (mem * bvec * option err * option nat * list Z) :=
  match fuel with
  | O => None
  | S fuel =>
      ' (m, r) <- cstr_gettok f m seps ends s ;;
      match r with
      | inl e => Some (m, v, Some e, None, s)
      | inr (None, rest) =>
          ' (m, v, e) <- bufv_nappend f m v None 0 ;;
          Some (m, v, e, None, rest)
      | inr (Some (q, n), rest) =>
          ' (m, v, e) <- bufv_nappend f m v (Some q) n ;;
          match e with
          | Some e => Some (m, v, Some e, Some q, rest)
          | None => bufv_loop fuel f m v seps ends rest
          end
      end
  end.

Definition cstr_to_bufv_endchar (f : nat -> bool) (m : mem) (seps ends s : list Z)
  : option (mem * (err + nat * nat * nat * list Z)) :=
  ' (m, v, e, tok, rest) <- bufv_loop (S (length s)) f m (mkbvec None 0 0 0) seps ends s ;;
  match e with
  | Some e =>
      m <- match tok with None => Some m | Some q => mfree m q end ;;
      m <- match bv_ptr v with
           | None => Some m
           | Some p => m <- free_strs m p (bv_bufc v) ;; m <- mfree m p ;; mfree m (bv_lens v)
           end ;;
      Some (m, inl e)
  | None =>
      match bv_ptr v with
      | None => None
      | Some p => Some (m, inr (p, bv_lens v, bv_bufc v, rest))
      end
  end.
