(** The error table, /repo/src/interface/errnos.rs lines 31-166.
    The enum is written out constructor by constructor (constructor names are
    prefixed with [e_]); [discriminant] is the [= value] annotation and
    [from_discriminant] the function generated by the [reversible_enum!] macro
    (lines 11-29). *)
From Verif Require Import Base.

Inductive Errno : Set :=
| e_EPERM
| e_ENOENT
| e_ESRCH
| e_EINTR
| e_EIO
| e_ENXIO
| e_EBIG
| e_ENOEXEC
| e_EBADF
| e_ECHILD
| e_EAGAIN
| e_ENOMEM
| e_EACCES
| e_EFAULT
| e_ENOTBLK
| e_EBUSY
| e_EEXIST
| e_EXDEV
| e_ENODEV
| e_ENOTDIR
| e_EISDIR
| e_EINVAL
| e_ENFILE
| e_EMFILE
| e_ENOTTY
| e_ETXTBSY
| e_EFBIG
| e_ENOSPC
| e_ESPIPE
| e_EROFS
| e_EMLINK
| e_EPIPE
| e_EDOM
| e_ERANGE
| e_EDEADLK
| e_ENAMETOOLONG
| e_ENOLCK
| e_ENOSYS
| e_ENOTEMPTY
| e_ELOOP
| e_ENOMSG
| e_EIDRM
| e_ECHRNG
| e_EL2NSYNC
| e_EL3HLT
| e_EL3RST
| e_ELNRNG
| e_EUNATCH
| e_ENOCSI
| e_EL2HLT
| e_EBADE
| e_EBADR
| e_EXFULL
| e_ENOANO
| e_EBADRQC
| e_EBADSLT
| e_EBFONT
| e_ENOSTR
| e_ENODATA
| e_ETIME
| e_ENOSR
| e_ENONET
| e_ENOPKG
| e_EREMOTE
| e_ENOLINK
| e_EADV
| e_ESRMNT
| e_ECOMM
| e_EPROTO
| e_EMULTIHOP
| e_EDOTDOT
| e_EBADMSG
| e_EOVERFLOW
| e_ENOTUNIQ
| e_EBADFD
| e_EREMCHG
| e_ELIBACC
| e_ELIBBAD
| e_ELIBSCN
| e_ELIBMAX
| e_ELIBEXEC
| e_EILSEQ
| e_ERESTART
| e_ESTRPIPE
| e_EUSERS
| e_ENOTSOCK
| e_EDESTADDRREQ
| e_EMSGSIZE
| e_EPROTOTYPE
| e_ENOPROTOOPT
| e_EPROTONOSUPPORT
| e_ESOCKTNOSUPPORT
| e_EOPNOTSUPP
| e_EPFNOSUPPORT
| e_EAFNOSUPPORT
| e_EADDRINUSE
| e_EADDRNOTAVAIL
| e_ENETDOWN
| e_ENETUNREACH
| e_ENETRESET
| e_ECONNABORTED
| e_ECONNRESET
| e_ENOBUFS
| e_EISCONN
| e_ENOTCONN
| e_ESHUTDOWN
| e_ETOOMANYREFS
| e_ETIMEDOUT
| e_ECONNREFUSED
| e_EHOSTDOWN
| e_EHOSTUNREACH
| e_EALREADY
| e_EINPROGRESS
| e_ESTALE
| e_EUCLEAN
| e_ENOTNAM
| e_ENAVAIL
| e_EISNAM
| e_EREMOTEIO
| e_EDQUOT
| e_ENOMEDIUM
| e_EMEDIUMTYPE
| e_ECANCELED
| e_ENOKEY
| e_EKEYEXPIRED
| e_EKEYREVOKED
| e_EKEYREJECTED
| e_EOWNERDEAD
| e_ENOTRECOVERABLE.

(** errnos.rs 34-165: explicit discriminants *)
Definition discriminant (e : Errno) : Z :=
  match e with
  | e_EPERM => 1
  | e_ENOENT => 2
  | e_ESRCH => 3
  | e_EINTR => 4
  | e_EIO => 5
  | e_ENXIO => 6
  | e_EBIG => 7
  | e_ENOEXEC => 8
  | e_EBADF => 9
  | e_ECHILD => 10
  | e_EAGAIN => 11
  | e_ENOMEM => 12
  | e_EACCES => 13
  | e_EFAULT => 14
  | e_ENOTBLK => 15
  | e_EBUSY => 16
  | e_EEXIST => 17
  | e_EXDEV => 18
  | e_ENODEV => 19
  | e_ENOTDIR => 20
  | e_EISDIR => 21
  | e_EINVAL => 22
  | e_ENFILE => 23
  | e_EMFILE => 24
  | e_ENOTTY => 25
  | e_ETXTBSY => 26
  | e_EFBIG => 27
  | e_ENOSPC => 28
  | e_ESPIPE => 29
  | e_EROFS => 30
  | e_EMLINK => 31
  | e_EPIPE => 32
  | e_EDOM => 33
  | e_ERANGE => 34
  | e_EDEADLK => 35
  | e_ENAMETOOLONG => 36
  | e_ENOLCK => 37
  | e_ENOSYS => 38
  | e_ENOTEMPTY => 39
  | e_ELOOP => 40
  | e_ENOMSG => 42
  | e_EIDRM => 43
  | e_ECHRNG => 44
  | e_EL2NSYNC => 45
  | e_EL3HLT => 46
  | e_EL3RST => 47
  | e_ELNRNG => 48
  | e_EUNATCH => 49
  | e_ENOCSI => 50
  | e_EL2HLT => 51
  | e_EBADE => 52
  | e_EBADR => 53
  | e_EXFULL => 54
  | e_ENOANO => 55
  | e_EBADRQC => 56
  | e_EBADSLT => 57
  | e_EBFONT => 59
  | e_ENOSTR => 60
  | e_ENODATA => 61
  | e_ETIME => 62
  | e_ENOSR => 63
  | e_ENONET => 64
  | e_ENOPKG => 65
  | e_EREMOTE => 66
  | e_ENOLINK => 67
  | e_EADV => 68
  | e_ESRMNT => 69
  | e_ECOMM => 70
  | e_EPROTO => 71
  | e_EMULTIHOP => 72
  | e_EDOTDOT => 73
  | e_EBADMSG => 74
  | e_EOVERFLOW => 75
  | e_ENOTUNIQ => 76
  | e_EBADFD => 77
  | e_EREMCHG => 78
  | e_ELIBACC => 79
  | e_ELIBBAD => 80
  | e_ELIBSCN => 81
  | e_ELIBMAX => 82
  | e_ELIBEXEC => 83
  | e_EILSEQ => 84
  | e_ERESTART => 85
  | e_ESTRPIPE => 86
  | e_EUSERS => 87
  | e_ENOTSOCK => 88
  | e_EDESTADDRREQ => 89
  | e_EMSGSIZE => 90
  | e_EPROTOTYPE => 91
  | e_ENOPROTOOPT => 92
  | e_EPROTONOSUPPORT => 93
  | e_ESOCKTNOSUPPORT => 94
  | e_EOPNOTSUPP => 95
  | e_EPFNOSUPPORT => 96
  | e_EAFNOSUPPORT => 97
  | e_EADDRINUSE => 98
  | e_EADDRNOTAVAIL => 99
  | e_ENETDOWN => 100
  | e_ENETUNREACH => 101
  | e_ENETRESET => 102
  | e_ECONNABORTED => 103
  | e_ECONNRESET => 104
  | e_ENOBUFS => 105
  | e_EISCONN => 106
  | e_ENOTCONN => 107
  | e_ESHUTDOWN => 108
  | e_ETOOMANYREFS => 109
  | e_ETIMEDOUT => 110
  | e_ECONNREFUSED => 111
  | e_EHOSTDOWN => 112
  | e_EHOSTUNREACH => 113
  | e_EALREADY => 114
  | e_EINPROGRESS => 115
  | e_ESTALE => 116
  | e_EUCLEAN => 117
  | e_ENOTNAM => 118
  | e_ENAVAIL => 119
  | e_EISNAM => 120
  | e_EREMOTEIO => 121
  | e_EDQUOT => 122
  | e_ENOMEDIUM => 123
  | e_EMEDIUMTYPE => 124
  | e_ECANCELED => 125
  | e_ENOKEY => 126
  | e_EKEYEXPIRED => 127
  | e_EKEYREVOKED => 128
  | e_EKEYREJECTED => 129
  | e_EOWNERDEAD => 130
  | e_ENOTRECOVERABLE => 131
  end.

(** errnos.rs 21-26: generated reverse lookup, [Err(())] is [None] *)
Definition from_discriminant (v : Z) : option Errno :=
  match v with
  | 1 => Some e_EPERM
  | 2 => Some e_ENOENT
  | 3 => Some e_ESRCH
  | 4 => Some e_EINTR
  | 5 => Some e_EIO
  | 6 => Some e_ENXIO
  | 7 => Some e_EBIG
  | 8 => Some e_ENOEXEC
  | 9 => Some e_EBADF
  | 10 => Some e_ECHILD
  | 11 => Some e_EAGAIN
  | 12 => Some e_ENOMEM
  | 13 => Some e_EACCES
  | 14 => Some e_EFAULT
  | 15 => Some e_ENOTBLK
  | 16 => Some e_EBUSY
  | 17 => Some e_EEXIST
  | 18 => Some e_EXDEV
  | 19 => Some e_ENODEV
  | 20 => Some e_ENOTDIR
  | 21 => Some e_EISDIR
  | 22 => Some e_EINVAL
  | 23 => Some e_ENFILE
  | 24 => Some e_EMFILE
  | 25 => Some e_ENOTTY
  | 26 => Some e_ETXTBSY
  | 27 => Some e_EFBIG
  | 28 => Some e_ENOSPC
  | 29 => Some e_ESPIPE
  | 30 => Some e_EROFS
  | 31 => Some e_EMLINK
  | 32 => Some e_EPIPE
  | 33 => Some e_EDOM
  | 34 => Some e_ERANGE
  | 35 => Some e_EDEADLK
  | 36 => Some e_ENAMETOOLONG
  | 37 => Some e_ENOLCK
  | 38 => Some e_ENOSYS
  | 39 => Some e_ENOTEMPTY
  | 40 => Some e_ELOOP
  | 42 => Some e_ENOMSG
  | 43 => Some e_EIDRM
  | 44 => Some e_ECHRNG
  | 45 => Some e_EL2NSYNC
  | 46 => Some e_EL3HLT
  | 47 => Some e_EL3RST
  | 48 => Some e_ELNRNG
  | 49 => Some e_EUNATCH
  | 50 => Some e_ENOCSI
  | 51 => Some e_EL2HLT
  | 52 => Some e_EBADE
  | 53 => Some e_EBADR
  | 54 => Some e_EXFULL
  | 55 => Some e_ENOANO
  | 56 => Some e_EBADRQC
  | 57 => Some e_EBADSLT
  | 59 => Some e_EBFONT
  | 60 => Some e_ENOSTR
  | 61 => Some e_ENODATA
  | 62 => Some e_ETIME
  | 63 => Some e_ENOSR
  | 64 => Some e_ENONET
  | 65 => Some e_ENOPKG
  | 66 => Some e_EREMOTE
  | 67 => Some e_ENOLINK
  | 68 => Some e_EADV
  | 69 => Some e_ESRMNT
  | 70 => Some e_ECOMM
  | 71 => Some e_EPROTO
  | 72 => Some e_EMULTIHOP
  | 73 => Some e_EDOTDOT
  | 74 => Some e_EBADMSG
  | 75 => Some e_EOVERFLOW
  | 76 => Some e_ENOTUNIQ
  | 77 => Some e_EBADFD
  | 78 => Some e_EREMCHG
  | 79 => Some e_ELIBACC
  | 80 => Some e_ELIBBAD
  | 81 => Some e_ELIBSCN
  | 82 => Some e_ELIBMAX
  | 83 => Some e_ELIBEXEC
  | 84 => Some e_EILSEQ
  | 85 => Some e_ERESTART
  | 86 => Some e_ESTRPIPE
  | 87 => Some e_EUSERS
  | 88 => Some e_ENOTSOCK
  | 89 => Some e_EDESTADDRREQ
  | 90 => Some e_EMSGSIZE
  | 91 => Some e_EPROTOTYPE
  | 92 => Some e_ENOPROTOOPT
  | 93 => Some e_EPROTONOSUPPORT
  | 94 => Some e_ESOCKTNOSUPPORT
  | 95 => Some e_EOPNOTSUPP
  | 96 => Some e_EPFNOSUPPORT
  | 97 => Some e_EAFNOSUPPORT
  | 98 => Some e_EADDRINUSE
  | 99 => Some e_EADDRNOTAVAIL
  | 100 => Some e_ENETDOWN
  | 101 => Some e_ENETUNREACH
  | 102 => Some e_ENETRESET
  | 103 => Some e_ECONNABORTED
  | 104 => Some e_ECONNRESET
  | 105 => Some e_ENOBUFS
  | 106 => Some e_EISCONN
  | 107 => Some e_ENOTCONN
  | 108 => Some e_ESHUTDOWN
  | 109 => Some e_ETOOMANYREFS
  | 110 => Some e_ETIMEDOUT
  | 111 => Some e_ECONNREFUSED
  | 112 => Some e_EHOSTDOWN
  | 113 => Some e_EHOSTUNREACH
  | 114 => Some e_EALREADY
  | 115 => Some e_EINPROGRESS
  | 116 => Some e_ESTALE
  | 117 => Some e_EUCLEAN
  | 118 => Some e_ENOTNAM
  | 119 => Some e_ENAVAIL
  | 120 => Some e_EISNAM
  | 121 => Some e_EREMOTEIO
  | 122 => Some e_EDQUOT
  | 123 => Some e_ENOMEDIUM
  | 124 => Some e_EMEDIUMTYPE
  | 125 => Some e_ECANCELED
  | 126 => Some e_ENOKEY
  | 127 => Some e_EKEYEXPIRED
  | 128 => Some e_EKEYREVOKED
  | 129 => Some e_EKEYREJECTED
  | 130 => Some e_EOWNERDEAD
  | 131 => Some e_ENOTRECOVERABLE
  | _ => None
  end.

(** errnos.rs 168-174: [syscall_error], logging omitted *)
Definition syscall_error (e : Errno) : Z := - discriminant e.
