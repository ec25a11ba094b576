(** Property theorems for lib/utils.c: strings, argument vectors, integers
    (C19-C22, C61-C63). *)
From Verif Require Import Base Mem_Model Mem_Proofs Cstr_Model Cstr_Spec Cstr_Proofs3
  Argv_Model Argv_Spec Argv_Proofs2 Argv_Proofs3 Argv_Proofs4.
Open Scope Z_scope.

(** C19: any strings, quoted with gensio_quote_string and separated by blanks,
    are these strings again for gensio_str_to_argv, whatever allocations
    fail. *)
Theorem C19_quoted_strings_parse_back : forall f m0 seps ss qs,
  mem_ok m0 -> Forall cstr_ok ss -> Forall2 quoted_as ss qs -> ~ In 34 seps -> In 32 seps ->
  exists m r, str_to_argv f m0 seps (spaced qs) = Some (m, r) /\
    ((exists p, r = inr (p, length ss, []) /\ has_argv m0 m p ss) \/
     (r = inl ENomem /\ failed f /\ same_blocks m m0)).
Proof. exact quoted_to_argv. Qed.
Print Assumptions C19_quoted_strings_parse_back.

(** C19: the same inside the argument list of a gensio string. *)
Theorem C19_quoted_gensio_arguments : forall f m0 ss qs rest,
  mem_ok m0 -> Forall cstr_ok ss -> Forall2 quoted_as ss qs -> cstr_ok rest ->
  exists m a r, scan_args f m0 (40 :: spaced qs ++ 41 :: 44 :: rest) = Some (m, a, r) /\
    ((exists p, a = Some (p, length ss) /\ r = inr rest /\ has_argv m0 m p ss) \/
     (a = None /\ r = inl ENomem /\ failed f /\ same_blocks m m0)).
Proof. exact quoted_scan_args. Qed.
Print Assumptions C19_quoted_gensio_arguments.

(** every string can be quoted *)
Theorem C19_every_string_is_quoted : forall s, cstr_ok s -> exists q, quoted_as s q /\ cstr_ok q.
Proof. intros s H. exists (quoted s). split; [apply quoted_as_quoted|apply quoted_ok]; exact H. Qed.
Print Assumptions C19_every_string_is_quoted.

(** a string with a double quote and a backslash, and the empty string *)
Example C19_example :
  Forall2 quoted_as [[97; 34; 98; 92]; []] [[34; 97; 92; 34; 98; 92; 92; 34]; [34; 34]] /\
  match str_to_argv (fun _ => false) mem0 default_seps (spaced [[34; 97; 92; 34; 98; 92; 92; 34]; [34; 34]]) with
  | Some (m, inr (p, n, [])) => n = 2%nat /\ load_ptrs m p = Some (map Some [0%nat; 2%nat] ++ repeat None 8) /\
      load_bytes m 0%nat = Some [97; 34; 98; 92; 0] /\ load_bytes m 2%nat = Some [0]
  | _ => False
  end.
Proof.
  split; [repeat constructor; eexists; split; vm_compute; reflexivity|]. vm_compute. auto.
Qed.

(** C20: false; \xff is the byte 85. *)
Theorem C20_hex_escape_refuted : exists s v,
  cstr_ok s /\ means [] [] 0 s v [] /\ v = [255] /\ cstr_to_buf s = Some (Some [85]).
Proof.
  exists [92; 120; 102; 102], [255]. split; [repeat constructor; lia|]. split.
  - apply (d_hex hex_digit hex_value False [] [] 0 [102; 102] [] [] []).
    + cbn. lia.
    + repeat constructor; unfold hex_digit; lia.
    + repeat constructor; unfold hex_digit; lia.
    + left. reflexivity.
    + constructor.
  - split; [reflexivity|]. vm_compute. reflexivity.
Qed.
Print Assumptions C20_hex_escape_refuted.

(** C20 for strings whose hexadecimal escapes use no letters; simple and
    octal escapes and both kinds of quotes are unrestricted. *)
Theorem C20_escapes_partial : forall s v r, cstr_ok s ->
  denotes decimal_digit hex_value False [] [] 0 s v r -> cstr_to_buf s = Some (Some v).
Proof. exact cstr_to_buf_decimal. Qed.
Print Assumptions C20_escapes_partial.

(** What the code does for every string: never undefined behaviour, an error
    exactly if the string has no meaning. *)
Theorem C20_exact_meaning_partial : forall s, cstr_ok s ->
  (exists r, cstr_to_buf s = Some r) /\
  (forall v, cstr_to_buf s = Some (Some v) <-> as_coded [] [] 0 s v []).
Proof. exact cstr_to_buf_exact. Qed.
Print Assumptions C20_exact_meaning_partial.

(** 'a b'\n\1012\x411 *)
Example C20_example : denotes decimal_digit hex_value False [] [] 0
    [39; 97; 32; 98; 39; 92; 110; 92; 49; 48; 49; 50; 92; 120; 52; 49; 49]
    [97; 32; 98; 10; 65; 50; 65; 49] [] /\
  cstr_to_buf [39; 97; 32; 98; 39; 92; 110; 92; 49; 48; 49; 50; 92; 120; 52; 49; 49] =
    Some (Some [97; 32; 98; 10; 65; 50; 65; 49]) /\
  cstr_to_buf [39; 97] = Some None.
Proof.
  split; [|split; vm_compute; reflexivity].
  apply d_open; [lia|]. apply d_quoted; [lia..|]. apply d_quoted; [lia..|]. apply d_quoted; [lia..|].
  apply d_close; [lia|].
  apply (d_simple decimal_digit hex_value False [] [] 0 110); [unfold octal_digit; lia|lia|].
  apply (d_octal decimal_digit hex_value False [] [] 0 [49; 48; 49] (50 :: 92 :: 120 :: 52 :: 49 :: 49 :: []));
    [cbn; lia|repeat constructor; unfold octal_digit; lia|left; reflexivity|].
  apply d_bare; [lia|lia|lia|easy|easy|].
  apply (d_hex decimal_digit hex_value False [] [] 0 [52; 49] [49]);
    [cbn; lia|repeat constructor; unfold hex_digit; lia|repeat constructor; unfold decimal_digit; lia|left; reflexivity|].
  apply d_bare; [lia|lia|lia|easy|easy|]. constructor.
Qed.

(** C21: appending any strings, whatever allocations fail.  On an error the
    vector holds the strings appended before. *)
Theorem C21_append : forall f m0 ss, mem_ok m0 ->
  exists m v e, append_all f m0 (mkvec None 0 0) ss = Some (m, v, e) /\
    match e with
    | None => exists p, vc_ptr v = Some p /\ vc_argc v = length ss /\ has_argv m0 m p ss
    | Some e => e = ENomem /\ failed f /\
        (vc_ptr v = None /\ same_blocks m m0 \/
         exists p ss1 ss2, vc_ptr v = Some p /\ ss = ss1 ++ ss2 /\ has_argv m0 m p ss1)
    end.
Proof. exact append_run_ok. Qed.
Print Assumptions C21_append.

(** C21: gensio_argv_copy *)
Theorem C21_copy : forall f m0 ss, mem_ok m0 ->
  exists m r, argv_copy f m0 ss = Some (m, r) /\
    match r with
    | inl e => e = ENomem /\ failed f /\ same_blocks m m0
    | inr (p, n) => n = length ss /\ has_argv m0 m p ss
    end.
Proof. exact argv_copy_ok. Qed.
Print Assumptions C21_copy.

(** C21: gensio_str_to_argv for any separators and end characters: the tokens
    of the string, or an error and nothing stays allocated. *)
Theorem C21_scan : forall f m0 seps ends s, mem_ok m0 -> cstr_ok s ->
  exists m r, str_to_argv_endchar f m0 seps ends s = Some (m, r) /\
    match r with
    | inl EInval => same_blocks m m0 /\ forall vs rest, ~ tokens_as_coded seps ends s vs rest
    | inl ENomem => same_blocks m m0 /\ failed f
    | inr (p, n, rest) => exists vs, tokens_as_coded seps ends s vs rest /\ n = length vs /\
        has_argv m0 m p vs
    end.
Proof. exact str_to_argv_coded. Qed.
Print Assumptions C21_scan.

(** twelve strings: the vector is reallocated once *)
Example C21_example :
  match append_all (fun _ => false) mem0 (mkvec None 0 0) (repeat [97; 98] 12) with
  | Some (m, v, None) => vc_argc v = 12%nat /\ vc_args v = 20%nat
  | _ => False
  end /\
  match append_all (fun n => Nat.eqb n 7) mem0 (mkvec None 0 0) (repeat [97; 98] 12) with
  | Some (m, v, Some ENomem) => vc_argc v = 6%nat
  | _ => False
  end.
Proof. vm_compute. auto. Qed.

(** C22: strictly by the C standard, false: reading a value of 2^31 or more
    shifts a one into the sign bit. *)
Theorem C22_u32_strict_refuted : exists v b,
  0 <= v < 2 ^ 32 /\ u32_to_buf [0; 0; 0; 0] v = Some b /\ buf_to_u32 b = None.
Proof. exists (2 ^ 31), [128; 0; 0; 0]. split; [lia|]. vm_compute. auto. Qed.
Print Assumptions C22_u32_strict_refuted.

(** C22 for compilers where the shift wraps; and strictly for values below
    2^31. *)
Theorem C22_u32_round_trip_partial : forall a0 a1 a2 a3 rest v, 0 <= v < 2 ^ 32 ->
  exists d0 d1 d2 d3, u32_to_buf (a0 :: a1 :: a2 :: a3 :: rest) v = Some (d0 :: d1 :: d2 :: d3 :: rest) /\
    is_byte d0 /\ is_byte d1 /\ is_byte d2 /\ is_byte d3 /\ big_endian [d0; d1; d2; d3] = v /\
    buf_to_u32_wrap (d0 :: d1 :: d2 :: d3 :: rest) = Some v /\
    (v < 2 ^ 31 -> buf_to_u32 (d0 :: d1 :: d2 :: d3 :: rest) = Some v).
Proof.
  intros a0 a1 a2 a3 rest v H.
  destruct (u32_to_buf_ok a0 a1 a2 a3 rest v H) as (d0 & d1 & d2 & d3 & E & B0 & B1 & B2 & B3 & V).
  exists d0, d1, d2, d3.
  repeat (split; [assumption|]). rewrite <- V. split; [apply buf_to_u32_wrap_ok; assumption|].
  intros Hv. apply buf_to_u32_ok; try assumption. rewrite be32 in Hv. unfold is_byte in *. lia.
Qed.
Print Assumptions C22_u32_round_trip_partial.

Theorem C22_u16_round_trip : forall a0 a1 rest v, 0 <= v < 2 ^ 16 ->
  exists d0 d1, u16_to_buf (a0 :: a1 :: rest) v = Some (d0 :: d1 :: rest) /\
    is_byte d0 /\ is_byte d1 /\ big_endian [d0; d1] = v /\
    buf_to_u16 (d0 :: d1 :: rest) = Some v.
Proof.
  intros a0 a1 rest v H. destruct (u16_to_buf_ok a0 a1 rest v H) as (d0 & d1 & E & B0 & B1 & V).
  exists d0, d1. repeat (split; [assumption|]). rewrite <- V. apply buf_to_u16_ok; assumption.
Qed.
Print Assumptions C22_u16_round_trip.

Example C22_example : u32_to_buf [9; 9; 9; 9; 7] 305419896 = Some [18; 52; 86; 120; 7] /\
  buf_to_u32 [18; 52; 86; 120; 7] = Some 305419896 /\ buf_to_u32_wrap [255; 0; 0; 1] = Some 4278190081 /\
  u16_to_buf [9; 9] 43981 = Some [171; 205] /\ buf_to_u16 [171; 205] = Some 43981.
Proof. vm_compute. auto. Qed.

(** C61: false.  When the vector has to grow and the second allocation fails,
    NULL is written to. *)
Theorem C61_bufv_null_write_refuted : exists f s,
  cstr_ok s /\ cstr_to_bufv_endchar f mem0 [32] [] s = None.
Proof.
  exists (fun n => Nat.eqb n 13), (spaced (repeat [97] 10)).
  split; [apply spaced_ok; repeat constructor; lia|]. vm_compute. reflexivity.
Qed.
Print Assumptions C61_bufv_null_write_refuted.

(** C61: false.  gensio_bufv_copy leaks when its second allocation fails. *)
Theorem C61_bufv_copy_leak_refuted : exists f ss m p,
  bufv_copy f mem0 ss = Some (m, inl ENomem) /\ adds mem0 m [p].
Proof.
  exists (fun n => Nat.eqb n 1), [[1; 2]].
  eexists _, 0%nat. split; [vm_compute; reflexivity|].
  split; [repeat constructor; easy|]. split.
  - intros p [<-|[]]. split; [reflexivity|discriminate].
  - intros p Hp. destruct p as [|p]; [destruct Hp; left; reflexivity|]. reflexivity.
Qed.
Print Assumptions C61_bufv_copy_leak_refuted.

(** C61 if no allocation fails, or if there are at most eight tokens. *)
Theorem C61_cstr_to_bufv_partial : forall f m0 seps ends s, mem_ok m0 -> cstr_ok s ->
  ~ failed f \/ (forall vs r, tokens_as_coded seps ends s vs r -> (length vs <= 8)%nat) /\
                (exists vs r, tokens_as_coded seps ends s vs r) ->
  exists m r, cstr_to_bufv_endchar f m0 seps ends s = Some (m, r) /\
    match r with
    | inl EInval => same_blocks m m0 /\ forall vs rest, ~ tokens_as_coded seps ends s vs rest
    | inl ENomem => same_blocks m m0 /\ failed f
    | inr (p, k, n, rest) => exists vs, tokens_as_coded seps ends s vs rest /\ n = length vs /\
        has_bufv m0 m p k vs
    end.
Proof. exact bufv_coded. Qed.
Print Assumptions C61_cstr_to_bufv_partial.

(** C61 for gensio_bufv_copy: at most one block is leaked. *)
Theorem C61_bufv_copy_partial : forall f m0 ss, mem_ok m0 ->
  exists m r, bufv_copy f m0 ss = Some (m, r) /\
    match r with
    | inl e => e = ENomem /\ failed f /\ (same_blocks m m0 \/ exists p, adds m0 m [p])
    | inr (p, k, n) => n = length ss /\ has_bufv m0 m p k ss
    end.
Proof. exact bufv_copy_ok. Qed.
Print Assumptions C61_bufv_copy_partial.

(** ten buffers without failing allocations, and two with a failure *)
Example C61_example :
  match cstr_to_bufv_endchar (fun _ => false) mem0 [32] [] (spaced (repeat [97; 92; 48] 10)) with
  | Some (m, inr (p, k, n, [])) => n = 10%nat /\ load_nums m k = Some (repeat 2%nat 10 ++ repeat 0%nat 10)
  | _ => False
  end /\
  match cstr_to_bufv_endchar (fun n => Nat.eqb n 3) mem0 [32] [] (spaced (repeat [97] 2)) with
  | Some (m, inl ENomem) => True
  | _ => False
  end.
Proof. vm_compute. auto. Qed.

(** C62: gensio_argv_snprintf prints the quoted strings, separated by blanks,
    like snprintf: cut to the room, always terminated, nothing else changed, and
    the whole length is returned (here as the new position). *)
Theorem C62_print_arguments : forall b len pos ss qs,
  (len <= length b)%nat -> Forall cstr_ok ss -> Forall2 quoted_as ss qs ->
  exists b', argv_snprintf b len pos ss = Some (b', (pos + length (spaced qs))%nat) /\
    length b' = length b /\ firstn pos b' = firstn pos b /\ skipn len b' = skipn len b /\
    ((len <= pos)%nat -> b' = b) /\
    ((pos < len)%nat -> firstn (length (truncated (len - pos) (spaced qs))) (skipn pos b')
                        = truncated (len - pos) (spaced qs)) /\
    ((pos < len)%nat -> cstring (skipn pos b') = Some (firstn (len - pos - 1) (spaced qs))).
Proof. exact printed_as. Qed.
Print Assumptions C62_print_arguments.

(** C62: what was printed with enough room is parsed back. *)
Theorem C62_print_parse : forall f m0 b pos ss seps b' pos',
  mem_ok m0 -> Forall cstr_ok ss -> ~ In 34 seps -> In 32 seps ->
  argv_snprintf b (length b) pos ss = Some (b', pos') -> (pos' < length b)%nat ->
  exists t m r, cstring (skipn pos b') = Some t /\ str_to_argv f m0 seps t = Some (m, r) /\
    ((exists p, r = inr (p, length ss, []) /\ has_argv m0 m p ss) \/
     (r = inl ENomem /\ failed f /\ same_blocks m m0)).
Proof.
  intros f m0 b pos ss seps b' pos' H0 Hs N1 H32 E Hp.
  assert (Q : Forall2 quoted_as ss (map quoted ss)).
  { clear - Hs. induction Hs; constructor; auto. apply quoted_as_quoted. assumption. }
  destruct (printed_as b (length b) pos ss _ (le_n _) Hs Q) as (b1 & E1 & _ & _ & _ & _ & _ & C).
  rewrite E1 in E. injection E as <- <-.
  destruct (quoted_to_argv f m0 seps ss _ H0 Hs Q N1 H32) as (m & r & E2 & R).
  exists (spaced (map quoted ss)), m, r. split; [|split; [exact E2|exact R]].
  rewrite C by lia. f_equal. apply firstn_all2. lia.
Qed.
Print Assumptions C62_print_parse.

(** nine bytes of room from position 1 on *)
Example C62_example :
  argv_snprintf (repeat 7 12) 10 1 [[97; 34]; [98]] =
    Some ([7; 34; 97; 92; 34; 34; 32; 34; 98; 0; 7; 7], 10%nat) /\
  argv_snprintf (repeat 7 12) 12 1 [[97; 34]; [98]] =
    Some ([7; 34; 97; 92; 34; 34; 32; 34; 98; 34; 0; 7], 10%nat).
Proof. vm_compute. auto. Qed.

(** C63: false.  Without the closing parenthesis gensio_scan_args returns an
    error and a vector that the callers in acc_gensio.c and os_osops.c do not
    free. *)
Theorem C63_scan_args_leak_refuted : exists s m p n,
  cstr_ok s /\ scan_args (fun _ => false) mem0 s = Some (m, Some (p, n), inl EInval) /\ m_blk m p <> None.
Proof.
  exists [40; 97]. do 3 eexists. split; [repeat constructor; lia|].
  split; [vm_compute; reflexivity|]. discriminate.
Qed.
Print Assumptions C63_scan_args_leak_refuted.

(** C63, except that a vector may be left to the caller after an error:
    gensio_scan_args for every string and every failing allocation. *)
Theorem C63_scan_args_partial : forall f m0 s, mem_ok m0 -> cstr_ok s ->
  exists m a r, scan_args f m0 s = Some (m, a, r) /\
    match a with
    | None => same_blocks m m0 /\ exists e, r = inl e
    | Some (p, n) => exists vs, n = length vs /\ has_argv m0 m p vs /\
        if hd 0 s =? 40 then
          exists t', tokens_as_coded [32; 12; 10; 13; 9; 11; 44] [41] (tl s) vs t' /\
            match r with
            | inr rest => t' = [41] /\ rest = [] \/ t' = 41 :: 44 :: rest
            | inl e => e = EInval /\ t' <> [41] /\ forall x, t' <> 41 :: 44 :: x
            end
        else vs = [] /\ r = inr (tl s)
    end /\
    (r = inl ENomem -> failed f).
Proof. exact scan_args_coded. Qed.
Print Assumptions C63_scan_args_partial.

(** two arguments, one in quotes, then more *)
Example C63_example :
  match scan_args (fun _ => false) mem0 [40; 97; 44; 34; 98; 32; 99; 34; 41; 44; 100] with
  | Some (m, Some (p, n), inr rest) => n = 2%nat /\ rest = [100] /\ load_bytes m 2%nat = Some [98; 32; 99; 0]
  | _ => False
  end.
Proof. vm_compute. auto. Qed.
