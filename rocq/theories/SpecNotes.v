(** C57: which notes (documentation and paths) stand on which card. *)
From Verif Require Import Base Compact Types Cards.
Local Open Scope string_scope.
Local Open Scope list_scope.

(** A note: documentation, and the path of a type. *)
Record note := Note { n_docs : string; n_path : list string }.

(** How a note is written: documentation as it is, the segments of the path separated
    by " >> "; what is empty is left out. *)
Definition written_path (path : list string) : option string :=
  match path with
  | [] => None
  | s :: r => Some (fold_left (fun text x => text ++ " >> " ++ x)%string r s)
  end.
Definition written (n : note) : info_flat :=
  InfoFlat (match n_docs n with "" => None | s => Some s end) (written_path (n_path n)).

Definition on_type (i : info) : note := Note (i_docs i) (i_path i).
(** Documentation of fields and variants, if there is any. *)
Definition remark (docs : string) : list note := match docs with "" => [] | _ => [Note docs []] end.

(** For each card in order: its notes, and the notes about the elements of a sequence.
    [above] are the notes about the value itself. *)
Fixpoint sheets (d : pdata) (above : list note) : list (list note * list note) :=
  let inner (x : ext pdata) more := sheets (x_data x) (more ++ map on_type (x_info x)) in
  let headed (f : fdata pdata) := (remark (fd_docs f), []) :: inner (fd_data f) [] in
  let bare_field (f : fdata pdata) more := inner (fd_data f) (more ++ remark (fd_docs f)) in
  let inside (fs : list (fdata pdata)) :=
    match fs with
    | [FData None _ _ _ as f] => bare_field f []
    | _ => flat_map headed fs
    end in
  match d with
  | DComposite [] | DTuple [] => []
  | DComposite [FData None _ _ _ as f] => bare_field f above
  | DComposite fs => (above, []) :: flat_map headed fs
  | DVariant v => (above, []) :: (remark (vd_docs v), []) :: inside (vd_fields v)
  | DCall c | DEvent c => ([on_type (ps_info c)], []) :: (remark (ps_variant_docs c), []) :: inside (ps_fields c)
  | DTuple l => (above, []) :: flat_map (fun x => inner x []) l
  | DSequence ei (SeqU U8 _) => [(above, map on_type ei)]
  | DSequence ei (SeqU _ l) => (above, map on_type ei) :: map (fun _ => ([], [])) l
  | DSequence ei (SeqVecU8 l bytes_infos) => (above, map on_type ei) :: map (fun _ => ([], map on_type bytes_infos)) l
  | DSequenceRaw ei l => (above, map on_type ei) :: flat_map (fun x => sheets x []) l
  | _ => [(above, [])]
  end.

Definition written_sheet (s : list note * list note) : list info_flat * list info_flat :=
  (map written (fst s), map written (snd s)).
