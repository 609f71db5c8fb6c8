(** * Errors: model of errors.go and of the parts of Go's [errors] package and of
    hashicorp/go-multierror it relies on. *)
From Coq Require Import String.
From Verif Require Import GoBase.
Local Open Scope string_scope.

(* Error values.  Pointers ( *multierror.Error, foreign error objects) are identified
   by an address [id]; foreign errors may wrap another error and have some text. *)
Inductive err : Type :=
| EBase (msg : string)                       (* errors.go:15 baseDiskoError *)
| ECustom (msg : string) (orig : err)        (* errors.go:93-96 customDriverError *)
| EMulti (id : Z) (elems : list err)         (* *multierror.Error *)
| EForeign (id : Z) (msg : string) (wraps : option err).

(* errors.go:17 *)
Definition rootError : err := EBase "".

Definition foreign_text := ": ".
(* Error(): errors.go:64-66, 100-102.  multierror's text is a bulleted list of its
   elements' texts; its exact layout is irrelevant here and left as a join. *)
Fixpoint error_text (e : err) : string :=
  match e with
  | EBase m => m
  | ECustom m _ => m
  | EMulti _ es => fold_right (fun x acc => error_text x ++ foreign_text ++ acc) "" es
  | EForeign _ m _ => m
  end.

(* errors.go:72-77 and 104-109: the base error's own text is not prefixed *)
Definition with_message (e : err) (m : string) : err :=
  match e with
  | EBase _ => ECustom m e
  | _ => ECustom (error_text e ++ ": " ++ m) e
  end.

(* multierror.Append(e, err): a new list; the elements of a *multierror.Error
   argument are spliced in (flattened).  [id] is the address of the new object. *)
Definition multi_elems (e : err) : list err :=
  match e with EMulti _ es => es | _ => [e] end.
Definition multi_append (id : Z) (e x : err) : err :=
  EMulti id (multi_elems e ++ multi_elems x).

(* errors.go:79-84 and 111-116; [None] = nil error: err.Error() panics *)
Definition wrap (id : Z) (e : err) (x : option err) : outcome err :=
  match x with
  | None => Panic
  | Some x => Ret (ECustom (error_text e ++ ": " ++ error_text x) (multi_append id e x))
  end.

(* errors.go:87-89 *)
Definition new_error (m : string) : err := EBase m.

(* is the dynamic type a DriverError? *)
Definition is_driver_error (e : err) : bool :=
  match e with EBase _ | ECustom _ _ => true | _ => false end.

(* errors.go:54-62 CastToDriverError *)
Definition cast_to_driver_error (id : Z) (e : option err) : outcome (option err) :=
  match e with
  | None => Ret None
  | Some x =>
      if is_driver_error x then Ret (Some x)
      else match wrap id rootError (Some x) with Ret y => Ret (Some y) | Panic => Panic | OutOfFuel => OutOfFuel end
  end.

(** ** errors.Is *)
(* Go's == on error interface values: same dynamic type and equal values; structs
   compare field by field, pointers by address. *)
Fixpoint same (a b : err) : bool :=
  match a, b with
  | EBase m, EBase m' => String.eqb m m'
  | ECustom m o, ECustom m' o' => String.eqb m m' && same o o'
  | EMulti i _, EMulti j _ => Z.eqb i j
  | EForeign i _ _, EForeign j _ _ => Z.eqb i j
  | _, _ => false
  end.

(* errors.Is(e, t): compare, then unwrap.  Unwrap of customDriverError is line 118;
   *multierror.Error unwraps to a chain whose Is tries its elements in order. *)
Fixpoint errors_is (e t : err) : bool :=
  same e t ||
  match e with
  | EBase _ => false
  | ECustom _ o => errors_is o t
  | EMulti _ es => existsb (fun x => errors_is x t) es
  | EForeign _ _ (Some w) => errors_is w t
  | EForeign _ _ None => false
  end.

(** ** Sentinels, errors.go:19-49 *)
Inductive sentinel :=
| ErrAlreadyInProgress | ErrArgumentOutOfRange | ErrBlockDeviceRequired | ErrBusy
| ErrCrossDeviceLink | ErrDirectoryNotEmpty | ErrDiskQuotaExceeded | ErrExists
| ErrFileDescriptorBadState | ErrFileSystemCorrupted | ErrFileTooLarge | ErrInvalidArgument
| ErrInvalidFileDescriptor | ErrInvalidFileSystem | ErrIOFailed | ErrIsADirectory
| ErrLinkCycleDetected | ErrNameTooLong | ErrNoDevice | ErrNoSpaceOnDevice | ErrNotADirectory
| ErrNotFound | ErrNotImplemented | ErrNotPermitted | ErrNotSupported | ErrPermissionDenied
| ErrReadOnlyFileSystem | ErrResultOutOfRange | ErrTooManyLinks | ErrTooManyOpenFiles
| ErrTooManyUsers.

Definition sentinel_text (s : sentinel) : string :=
  match s with
  | ErrAlreadyInProgress => "Operation already in progress"
  | ErrArgumentOutOfRange => "Numerical argument out of domain"
  | ErrBlockDeviceRequired => "Block device required"
  | ErrBusy => "Device or resource busy"
  | ErrCrossDeviceLink => "Invalid cross-device link"
  | ErrDirectoryNotEmpty => "Directory not empty"
  | ErrDiskQuotaExceeded => "Disk quota exceeded"
  | ErrExists => "File exists"
  | ErrFileDescriptorBadState => "File descriptor in bad state"
  | ErrFileSystemCorrupted => "Structure needs cleaning"
  | ErrFileTooLarge => "File too large"
  | ErrInvalidArgument => "Invalid argument"
  | ErrInvalidFileDescriptor => "Bad file descriptor"
  | ErrInvalidFileSystem => "Wrong medium type"
  | ErrIOFailed => "Input/output error"
  | ErrIsADirectory => "Is a directory"
  | ErrLinkCycleDetected => "Symlink cycle detected"
  | ErrNameTooLong => "File name too long"
  | ErrNoDevice => "No such device"
  | ErrNoSpaceOnDevice => "No space left on device"
  | ErrNotADirectory => "Not a directory"
  | ErrNotFound => "No such file or directory"
  | ErrNotImplemented => "Function not implemented"
  | ErrNotPermitted => "Operation not permitted"
  | ErrNotSupported => "Operation not supported"
  | ErrPermissionDenied => "Permission denied"
  | ErrReadOnlyFileSystem => "Read-only file system"
  | ErrResultOutOfRange => "Numerical result out of range"
  | ErrTooManyLinks => "Too many links"
  | ErrTooManyOpenFiles => "Too many open files in system"
  | ErrTooManyUsers => "Too many users"
  end.
(* the exported variable *)
Definition sentinel_err (s : sentinel) : err := with_message rootError (sentinel_text s).

(** ** Error classes
    Elsewhere in the model an error is only its class as seen by [errors.Is]:
    a sentinel, io.EOF, io.ErrUnexpectedEOF, or some other error (numbered).
    Messages added by WithMessage do not change the class (C10, C11).
    [KMsg e] is fmt.Errorf("...%w", e): errors.Is finds e in it, but a comparison
    with == (basicstream.go:154, 336) does not.  [KWrap s e] is what [s.Wrap(e)] returns (errors.go:87-92,
    122-127): errors.Is finds both the sentinel and the wrapped error in it. *)
Inductive kerr :=
| K (s : sentinel)
| KEOF
| KUnexpectedEOF
| KExt (e : Z)
| KMsg (e : kerr)
| KWrap (s : sentinel) (e : kerr).
(* errors.Is(err, target) for a sentinel target (C10, C11); the sentinels are told apart by their texts,
   as the values of errors.go:19-49 are *)
Fixpoint kerr_is (err : kerr) (target : sentinel) : bool :=
  match err with
  | K s => String.eqb (sentinel_text s) (sentinel_text target)
  | KWrap s e => String.eqb (sentinel_text s) (sentinel_text target) || kerr_is e target
  | KMsg e => kerr_is e target
  | KEOF | KUnexpectedEOF | KExt _ => false
  end.
