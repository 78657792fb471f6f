(** What it means to apply a patch in several sessions with dump and restore. *)

From Coq Require Import ZArith List Bool.
From Verif Require Import Prelude Heatshrink CReader CSeq Spec SeqSpec.
Import ListNotations.
Open Scope Z_scope.

(** [n] bytes of [patch] at [offset]. *)
Definition piece_at (patch : list Z) (offset n : Z) : list Z := ztake n (zdrop offset patch).

(** Length of the patch header: everything before the body. *)
Definition header_length (patch : list Z) : Z := zlen patch - zlen (body_of patch).

(** The first byte of a heatshrink stream for the decoder that is compiled in:
    window 2^8 and lookahead 2^7 (c/heatshrink/heatshrink_config.h). *)
Definition HS_FIRST_BYTE : Z := 68.

(** The points of a patch at which a dump can be restored.  For a heatshrink patch
    these are all points within the header and, behind it, all points if the patch
    does not create an empty file and its body does not break off at once; the
    decoder does not exist otherwise. *)
Definition dumpable (patch : list Z) (offset : Z) : Prop :=
  announced_comp patch = comp_number CompHeatshrink ->
  offset < header_length patch \/
  announced_size patch <> Some 0 /\ hd_error (body_of patch) = Some HS_FIRST_BYTE.

Section Session.
Context `{WordBits}.

(** [session from patch ps s w]: an applier whose state is [s] and whose files are
    [w] after a history of
    - starting afresh, with the from file rewound and an empty to file,
    - processing the next piece of the patch, as told by get_patch_offset(),
    - losing everything but the from file, the to file and the state dumped at
      some point of such a history, when [lost] more bytes may have been written
      to the to file since the dump: then a new applier is initialised, the dump is
      restored with the from file rewound, and the to file is cut to
      get_to_offset(). *)
Inductive session (from patch : list Z) (ps : Z) : ap -> files -> Prop :=
| session_start : forall junk, session from patch ps (ap_init junk ps) (mkfiles from 0 [])
| session_process : forall s w n fuel s1 w1,
    session from patch ps s w ->
    0 <= n <= zlen patch - get_patch_offset s ->
    (announced_comp patch = 0 -> get_patch_offset s = 0 ->
       header_complete (piece_at patch 0 n) = true) ->
    process file_env fuel 128 s w (piece_at patch (get_patch_offset s) n) = Ret (0, s1, w1) ->
    session from patch ps s1 w1
| session_restore : forall s w lost junk ps2 s1 w1,
    session from patch ps s w ->
    dumpable patch (get_patch_offset s) -> zlen (f_to w) < 2 ^ word_bits ->
    restore file_env (ap_init junk ps2) s (mkfiles from 0 (f_to w ++ lost)) = Ret (0, s1, w1) ->
    session from patch ps s1 (mkfiles (f_from w1) (f_pos w1) (ztake (get_to_offset s1) (f_to w1))).

(** What the user sees of a sequence of calls: results and files. *)
Definition observed {R W : Type} (o : outcome (R * ap * W)) : outcome (R * W) :=
  letm (r, _, w) := o in Ret (r, w).

(** A user who goes on right behind the header of a heatshrink patch goes on with
    the first byte of its body. *)
Definition goes_on (patch : list Z) (offset : Z) (calls : list call) : Prop :=
  announced_comp patch = comp_number CompHeatshrink -> offset = header_length patch ->
  exists p rest, calls = CallProcess (HS_FIRST_BYTE :: p) :: rest.

End Session.
