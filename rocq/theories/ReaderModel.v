(** Model of making readers of data, of their options and of loading them anew: data_readers/data.py (Data.__new__, 30-87),
    data_readers/base_data.py (data and data_format, 66-98; file_encoding.setter, 127-137; _check_and_return_options, 142-149;
    reload, 169-193), data_readers/csv_data.py (CSVData.__init__, 67-97; _check_and_return_options, 129-181; _load_data_from_str, 543-565;
    reload, 744-770), the formats of the readers (csv 80, json 69-76, parquet 58-60, text 56-58, avro and graph), is_structured, and
    data_readers/data_utils.py (url_to_bytes, 880-928; S3Helper.is_s3_uri, 941-962).

    Options are dictionaries from names to values.  Not modelled: options that are no dictionaries; the position of buffers, which
    the tests of files put back (C46); logging. *)
From Coq Require Import ZArith QArith.
From Verif Require Import PyCommon PyDict PyString OptionsModel OptCheckModel JsonModel.
Local Open Scope nat_scope.
Local Open Scope string_scope.
Local Open Scope list_scope.

Notation options := (list (string * val)).

(** ** Which reader *)
Inductive kind := KJson | KGraph | KCsv | KParquet | KAvro | KText.
(** [data_type] of the classes *)
Definition type_name (k : kind) : string :=
  match k with KJson => "json" | KGraph => "graph" | KCsv => "csv" | KParquet => "parquet" | KAvro => "avro" | KText => "text" end.
(** Data.data_classes, data.py 22-29 *)
Definition data_classes : list kind := [KJson; KGraph; KCsv; KParquet; KAvro; KText].

(** [path.strip().startswith(prefix)]; the prefixes hold no blanks, so that blanks at the end do not matter *)
Fixpoint drop_blanks (s : string) : string :=
  match s with
  | String.String c r => if lmem [9; 10; 11; 12; 13; 32] (Ascii.nat_of_ascii c) then drop_blanks r else s
  | String.EmptyString => s
  end.
Definition is_s3_uri (s : string) : bool :=
  (String.prefix "s3://" (drop_blanks s) || String.prefix "s3a://" (drop_blanks s))%bool.

Definition some {A} (o : option A) : bool := match o with Some _ => true | None => false end.

Inductive input (B : Type) := IPath (s : string) | IBuffer (b : B).
Arguments IPath {B} s.
Arguments IBuffer {B} b.
(** [bool(input_file_path)]: buffers are true *)
Definition present {B} (i : option (input B)) : bool :=
  match i with Some (IPath s) => negb (String.eqb s "") | Some (IBuffer _) => true | None => false end.

Section Factory.
  Context {B D R : Type}.                                             (* buffers, data in memory, readers *)
  Variable is_url : string -> bool.                                   (* an address with scheme and host: urllib *)
  Variable s3_bytes : string -> val -> result B.                      (* the file at an address, with the storage options *)
  Variable url_bytes : string -> options -> result B.
  Variable is_match : kind -> option (input B) -> options -> result bool * options.   (* and the options it leaves *)
  Variable construct : kind -> option (input B) -> option D -> options -> result R.

  (** data.py 67-75: what is read, and the options of the user *)
  Definition fetch (i : option (input B)) (opts : options) : result (option (input B)) * options :=
    match i with
    | Some (IPath s) =>
        if is_url s then
          if is_s3_uri s
          then let storage := match dget opts "storage_options" with Some v => v | None => VDict [] end in
               (match s3_bytes s storage with Ok b => Ok (Some (IBuffer b)) | Err e => Err e end, ddel opts "storage_options")
          else (match url_bytes s opts with Ok b => Ok (Some (IBuffer b)) | Err e => Err e end, opts)
        else (Ok i, opts)
    | _ => (Ok i, opts)
    end.

  (** [not data_type or data_type == data_class.data_type] *)
  Definition fits (t : option string) (k : kind) : bool :=
    match t with None => true | Some s => (String.eqb s "" || String.eqb s (type_name k))%bool end.

  (** data.py 77-87; every class gets a copy of the options *)
  Fixpoint choose (ks : list kind) (i : option (input B)) (data : option D) (t : option string) (opts : options) : result R :=
    match ks with
    | [] => Err ValueError
    | k :: r =>
        if fits t k then
          match data with
          | Some _ => construct k i data opts
          | None =>
              match is_match k i opts with
              | (Err e, _) => Err e
              | (Ok true, o) => construct k i None o
              | (Ok false, _) => choose r i data t opts
              end
          end
        else choose r i data t opts
    end.

  (** data.py 30-87; the second part is the dictionary of options of the user afterwards *)
  Definition make (i : option (input B)) (data : option D) (t : option string) (opts : options) : result R * options :=
    if (negb (present i) && negb (some data))%bool then (Err ValueError, opts)
    else if (present i && some data)%bool then (Err ValueError, opts)
    else if (some data && negb (match t with Some s => negb (String.eqb s "") | None => false end))%bool then (Err ValueError, opts)
    else
      let (got, opts1) := fetch i opts in
      (match got with Err e => Err e | Ok i1 => choose data_classes i1 data t opts1 end, opts1).
End Factory.

(** ** Formats *)
(** The keys of _data_formats *)
Definition formats (k : kind) : list string :=
  match k with
  | KCsv => ["dataframe"; "records"]
  | KJson | KAvro => ["dataframe"; "records"; "json"; "flattened_dataframe"]
  | KParquet => ["dataframe"; "records"; "json"]
  | KText => ["text"]
  | KGraph => []
  end.
Definition default_format (k : kind) : val :=
  match k with
  | KCsv | KParquet => VStr "dataframe" | KJson | KAvro => VStr "flattened_dataframe" | KText => VStr "text" | KGraph => VNone
  end.
(** [options.get("data_format", ...)]; graphs have none *)
Definition first_format (k : kind) (opts : options) : val :=
  match k with KGraph => VNone | _ => match dget opts "data_format" with Some v => v | None => default_format k end end.
(** data_format.setter, base_data.py 89-98 *)
Definition set_format (k : kind) (selected : val) (value : string) : val * option exn :=
  if lmem (formats k) (lower_string value) then (VStr (lower_string value), None) else (selected, Some ValueError).
(** data, base_data.py 66-82: the conversion that is applied to what was read *)
Definition conversion (k : kind) (selected : val) : result (option string) :=
  if negb (truthy selected) then Ok None
  else match selected with VStr s => if lmem (formats k) s then Ok (Some s) else Err ValueError | _ => Err ValueError end.
(** is_structured: csv 124-127, json 110-113, parquet, text; base_data.py 100-103 for graphs *)
Definition is_structured (k : kind) (selected : val) : result bool :=
  match k with
  | KGraph => Err NotImplementedErr
  | KText => Ok false
  | KCsv | KParquet => Ok (match selected with VStr s => String.eqb s "dataframe" | _ => false end)
  | KJson | KAvro => Ok (match selected with VStr s => lmem ["dataframe"; "flattened_dataframe"] s | _ => false end)
  end.
(** file_encoding.setter, base_data.py 127-137; [None] is no value; AVRO and Parquet ignore it *)
Definition set_encoding (k : kind) (current : option string) (value : option string) : option string * option exn :=
  match k with
  | KAvro | KParquet => (current, None)
  | _ => match value with
         | Some s => if lmem ["ascii"; "utf-8"; "utf-16"; "utf-32"] (lower_string s) then (Some s, None) else (current, Some ValueError)
         | None => (current, Some ValueError)
         end
  end.

(** ** Delimited data *)
(** CSVData._check_and_return_options, csv_data.py 129-181 *)
Definition bad_option (name : string) (v : val) : bool :=
  if String.eqb name "header" then
    match v with VStr s => negb (String.eqb s "auto") | VNone => false | _ => match as_int v with Some z => (z <=? -1)%Z | None => true end end
  else if String.eqb name "delimiter" then negb (is_none v || is_str v)
  else if String.eqb name "data_format" then match v with VStr s => negb (lmem ["dataframe"; "records"] s) | _ => true end
  else if String.eqb name "selected_columns" then match v with VList l => negb (forallb is_str l) | _ => true end
  else if (String.eqb name "record_samples_per_line" || String.eqb name "sample_nrows")%bool
       then match as_int v with Some z => (z <? 0)%Z | None => true end
  else false.
Definition checked_names : list string :=
  ["header"; "delimiter"; "data_format"; "selected_columns"; "record_samples_per_line"; "sample_nrows"].
Definition check_csv (opts : options) : option exn :=
  if existsb (fun n => match dget opts n with Some v => bad_option n v | None => false end) checked_names then Some ValueError else None.

(** Data in memory: a table, a text, or something else *)
Inductive memory (T : Type) := MTable (t : T) | MText (s : string) | MOther.
Arguments MTable {T} t.
Arguments MText {T} s.
Arguments MOther {T}.

Record csv (B : Type) := mkCsv {
  c_path : option (input B); c_loaded : bool; c_options : options;
  c_header : val; c_delimiter : val; c_quote : val; c_checked : bool;
  c_format : val; c_columns : val; c_per_line : val; c_nrows : val }.
Arguments mkCsv {B}.
Arguments c_path {B}. Arguments c_loaded {B}. Arguments c_options {B}. Arguments c_header {B}. Arguments c_delimiter {B}.
Arguments c_quote {B}. Arguments c_checked {B}. Arguments c_format {B}. Arguments c_columns {B}. Arguments c_per_line {B}.
Arguments c_nrows {B}.

Definition get_or (opts : options) (n : string) (d : val) : val := match dget opts n with Some v => v | None => d end.
Definition or_else (a b : val) : val := if truthy a then a else b.
Definition is_auto (v : val) : bool := match v with VStr s => String.eqb s "auto" | _ => false end.

Section Csv.
  Context {B T : Type}.
  Variable guess : string -> val * val.                      (* delimiter and quote of a text: C84 *)
  Variable guess_header : string -> val -> val -> val.       (* C82 *)
  Variable is_match : option (input B) -> options -> result bool * options.   (* C83 *)

  (** CSVData.__init__, csv_data.py 67-97, with _load_data (structured_mixins.py 50-62) and _load_data_from_str (543-565) *)
  Definition new_csv (i : option (input B)) (data : option (memory T)) (opts : options) : result (csv B) :=
    match check_csv opts with
    | Some e => Err e
    | None =>
        let header := get_or opts "header" (VStr "auto") in
        let delimiter := get_or opts "delimiter" VNone in
        let quote := get_or opts "quotechar" VNone in
        let checked := (dmem opts "header" && negb (is_auto header))%bool in
        let made loaded h d q :=
          mkCsv i loaded opts h d q checked (get_or opts "data_format" (VStr "dataframe"))
            (get_or opts "selected_columns" (VList [])) (get_or opts "record_samples_per_line" (VInt 1)) (get_or opts "sample_nrows" VNone) in
        match data with
        | None => Ok (made false header delimiter quote)
        | Some (MTable _) => Ok (made true header (or_else delimiter (VStr ",")) (or_else quote (VStr """")))
        | Some (MText s) =>
            let dq := if (negb (truthy delimiter) || negb (truthy quote))%bool then guess s else (VNone, VNone) in
            let delimiter := or_else delimiter (fst dq) in
            let quote := or_else quote (snd dq) in
            let header := if is_auto header then guess_header s delimiter quote else header in
            Ok (made true header (or_else delimiter (VStr ",")) (or_else quote (VStr """")))
        | Some MOther => Err ValueError
        end
    end.

  (** CSVData.reload, csv_data.py 744-770, with BaseData.reload, base_data.py 169-193; the options afterwards are those of the
      user, if there were any: the dictionary is changed in place *)
  Definition reload (c : csv B) (i : option (input B)) (data : option (memory T)) (opts : options) : result (csv B) * options :=
    let o := dset (dset (dset opts "header" (c_header c)) "delimiter" (c_delimiter c)) "quotechar" (c_quote c) in
    if present i then
      match is_match i o with
      | (Err e, o1) => (Err e, o1)
      | (Ok false, o1) => (Err ValueError, o1)
      | (Ok true, o1) => (new_csv i data o1, o1)
      end
    else (new_csv (c_path c) data o, o).
End Csv.

(** Records of a table that was written as lines (_get_data_as_records, csv_data.py 615-621): SAMPLES_PER_LINE_DEFAULT is the
    option record_samples_per_line *)
Definition records {A} (newline : list A) (c_per : Z) (lines : list (list A)) : result (list (list A)) :=
  record_lines newline (Z.to_nat c_per) lines.

(** ** Downloads *)
(** url_to_bytes, data_utils.py 880-928: [declared] is the content length, chunks are those of iter_content *)
Definition limit : Z := 1073741824.
Fixpoint take_chunks {A} (total : Z) (stream : list A) (chunks : list (list A)) : result (list A) :=
  match chunks with
  | [] => Ok stream
  | c :: r =>
      let total := (total + 8192)%Z in
      if (limit <? total)%Z then Err ValueError else take_chunks total (stream ++ c) r
  end.
Definition download {A} (declared : option Z) (chunks : list (list A)) : result (list A) :=
  if match declared with Some n => (limit <=? n)%Z | None => false end then Err ValueError
  else take_chunks 0 [] chunks.
