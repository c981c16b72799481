(** Tables of the model ErrModel, written out of the sources by a script.  Names of errors are strings. *)
From Coq Require Import String.
From Coq Require Import List.
From Verif Require Import Base.
Local Open Scope string_scope.

(** platforms/win32_code_to_errno.h 1-131 (without case 0): the codes of each errno. *)
Definition codes_of_errno : list (string * list Z) :=
  [("EACCES", [5]%Z);
   ("EAGAIN", [89; 164; 996; 997; 1451; 1452; 1453; 1454; 1455; 2401; 2402; 2404]%Z);
   ("EBADF", [6]%Z);
   ("EBADRQC", [1]%Z);
   ("EBUSY", [32; 33; 129; 162; 170; 231; 535; 1053; 1460]%Z);
   ("ECHILD", [128]%Z);
   ("ECOMM", [233; 536]%Z);
   ("ECONNREFUSED", [1225]%Z);
   ("EDEADLOCK", [1131]%Z);
   ("EEXIST", [80; 183; 1392]%Z);
   ("EFAULT", [998; 1067]%Z);
   ("EFBIG", [1450]%Z);
   ("EINTR", [104; 1223]%Z);
   ("EINVAL", [13; 25; 27; 87; 131; 208; 209; 210; 230; 254; 255; 424; 487; 1008; 1332; 2202]%Z);
   ("EIO", [23; 59; 110; 156; 205; 1101; 1102; 1103; 1104; 1106; 1111; 1117; 1129; 1165; 1166; 1393; 1816; 8341]%Z);
   ("ELIBBAD", [14001]%Z);
   ("EMFILE", [4]%Z);
   ("EMLINK", [1142]%Z);
   ("EMSGSIZE", [234]%Z);
   ("ENAMETOOLONG", [206]%Z);
   ("ENFILE", [113]%Z);
   ("ENMFILE", [18; 259]%Z);
   ("ENODATA", [38]%Z);
   ("ENODEV", [15; 20; 1200]%Z);
   ("ENOENT", [2; 3; 53; 55; 64; 67; 123; 126; 161]%Z);
   ("ENOEXEC", [191; 192; 193; 197; 216]%Z);
   ("ENOLCK", [36]%Z);
   ("ENOLINK", [2250]%Z);
   ("ENOMEDIUM", [21; 1112]%Z);
   ("ENOMEM", [8; 14]%Z);
   ("ENONET", [51]%Z);
   ("ENOSPC", [39; 112; 275; 277; 1100]%Z);
   ("ENOSYS", [50; 58; 120]%Z);
   ("ENOTDIR", [267]%Z);
   ("ENOTEMPTY", [145]%Z);
   ("ENOTSUP", [282]%Z);
   ("ENOTUNIQ", [52]%Z);
   ("ENXIO", [1006]%Z);
   ("EPERM", [82; 288; 1314]%Z);
   ("EPIPE", [109; 232]%Z);
   ("EROFS", [19]%Z);
   ("ESRCH", [127]%Z);
   ("EXDEV", [17]%Z)].

(** platforms/errno_to_win32_code.h 1-131 (without case 0). *)
Definition code_of_errno : list (string * Z) :=
  [("EACCES", 5%Z);
   ("EAGAIN", 89%Z);
   ("EBADF", 6%Z);
   ("EBADRQC", 1%Z);
   ("EBUSY", 32%Z);
   ("ECHILD", 128%Z);
   ("ECOMM", 233%Z);
   ("ECONNREFUSED", 1225%Z);
   ("EDEADLOCK", 1131%Z);
   ("EEXIST", 80%Z);
   ("EFAULT", 998%Z);
   ("EFBIG", 1450%Z);
   ("EINTR", 104%Z);
   ("EINVAL", 13%Z);
   ("EIO", 23%Z);
   ("ELIBBAD", 14001%Z);
   ("EMFILE", 4%Z);
   ("EMLINK", 1142%Z);
   ("EMSGSIZE", 234%Z);
   ("ENAMETOOLONG", 206%Z);
   ("ENFILE", 113%Z);
   ("ENMFILE", 18%Z);
   ("ENODATA", 38%Z);
   ("ENODEV", 15%Z);
   ("ENOENT", 2%Z);
   ("ENOEXEC", 191%Z);
   ("ENOLCK", 36%Z);
   ("ENOLINK", 2250%Z);
   ("ENOMEDIUM", 21%Z);
   ("ENOMEM", 8%Z);
   ("ENONET", 51%Z);
   ("ENOSPC", 39%Z);
   ("ENOSYS", 50%Z);
   ("ENOTDIR", 267%Z);
   ("ENOTEMPTY", 145%Z);
   ("ENOTSUP", 282%Z);
   ("ENOTUNIQ", 52%Z);
   ("ENXIO", 1006%Z);
   ("EPERM", 82%Z);
   ("EPIPE", 109%Z);
   ("EROFS", 19%Z);
   ("ESRCH", 127%Z);
   ("EXDEV", 17%Z)].

(** posix_error_scatter/generic.h 1-398, without case 0; the branches for the other character types (398-1974) have the same texts.
    The second name is the errno that must have another number for the case to be compiled. *)
Definition errno_texts : list (string * option string * string) :=
  [("EPERM", Some "EACCES", "Not owner");
   ("ENOENT", None, "No such file or directory");
   ("ESRCH", None, "No such process");
   ("EINTR", None, "Interrupted system call");
   ("EIO", None, "I/O error");
   ("ENXIO", Some "ENODEV", "No such device or address");
   ("E2BIG", None, "Arg list too long");
   ("ENOEXEC", None, "Exec format error");
   ("EALREADY", None, "Socket already connected");
   ("EBADF", None, "Bad file number");
   ("ECHILD", None, "No children");
   ("EDESTADDRREQ", None, "Destination address required");
   ("EAGAIN", None, "No more processes");
   ("ENOMEM", None, "Not enough space");
   ("EACCES", None, "Permission denied");
   ("EFAULT", None, "Bad address");
   ("ENOTBLK", None, "Block device required");
   ("EBUSY", None, "Device or resource busy");
   ("EEXIST", None, "File exists");
   ("EXDEV", None, "Cross-device link");
   ("ENODEV", None, "No such device");
   ("ENOTDIR", None, "Not a directory");
   ("EHOSTDOWN", None, "Host is down");
   ("EINPROGRESS", None, "Connection already in progress");
   ("EISDIR", None, "Is a directory");
   ("EINVAL", None, "Invalid argument");
   ("ENETDOWN", None, "Network interface is not configured");
   ("ENETRESET", None, "Connection aborted by network");
   ("ENFILE", None, "Too many open files in system");
   ("EMFILE", None, "File descriptor value too large");
   ("ENOTTY", None, "Not a character device");
   ("ETXTBSY", None, "Text file busy");
   ("EFBIG", None, "File too large");
   ("EHOSTUNREACH", None, "Host is unreachable");
   ("ENOSPC", None, "No space left on device");
   ("ENOTSUP", None, "Not supported");
   ("ESPIPE", None, "Illegal seek");
   ("EROFS", None, "Read-only file system");
   ("EMLINK", None, "Too many links");
   ("EPIPE", None, "Broken pipe");
   ("EDOM", None, "Mathematics argument out of domain of function");
   ("ERANGE", None, "Result too large");
   ("ENOMSG", None, "No message of desired type");
   ("EIDRM", None, "Identifier removed");
   ("EILSEQ", None, "Illegal byte sequence");
   ("EDEADLK", None, "Deadlock");
   ("ENOLCK", None, "No lock");
   ("ENOSTR", None, "Not a stream");
   ("ETIME", None, "Stream ioctl timeout");
   ("ENOSR", None, "No stream resources");
   ("ENONET", None, "Machine is not on the network");
   ("ENOPKG", None, "No package");
   ("EREMOTE", None, "Resource is remote");
   ("ENOLINK", None, "Virtual circuit is gone");
   ("EADV", None, "Advertise error");
   ("ESRMNT", None, "Srmount error");
   ("ECOMM", None, "Communication error");
   ("EPROTO", None, "Protocol error");
   ("EPROTONOSUPPORT", None, "Unknown protocol");
   ("EMULTIHOP", None, "Multihop attempted");
   ("EBADMSG", None, "Bad message");
   ("ELIBACC", None, "Cannot access a needed shared library");
   ("ELIBBAD", None, "Accessing a corrupted shared library");
   ("ELIBSCN", None, ".lib section in a.out corrupted");
   ("ELIBMAX", None, "Attempting to link in more shared libraries than system limit");
   ("ELIBEXEC", None, "Cannot exec a shared library directly");
   ("ENOSYS", None, "Function not implemented");
   ("ENMFILE", None, "No more files");
   ("ENOTEMPTY", None, "Directory not empty");
   ("ENAMETOOLONG", None, "File or path name too long");
   ("ELOOP", None, "Too many symbolic links");
   ("ENOBUFS", None, "No buffer space available");
   ("ENODATA", None, "No data");
   ("EAFNOSUPPORT", None, "Address family not supported by protocol family");
   ("EPROTOTYPE", None, "Protocol wrong type for socket");
   ("ENOTSOCK", None, "Socket operation on non-socket");
   ("ENOPROTOOPT", None, "Protocol not available");
   ("ESHUTDOWN", None, "Can't send after socket shutdown");
   ("ECONNREFUSED", None, "Connection refused");
   ("ECONNRESET", None, "Connection reset by peer");
   ("EADDRINUSE", None, "Address already in use");
   ("EADDRNOTAVAIL", None, "Address not available");
   ("ECONNABORTED", None, "Software caused connection abort");
   ("EWOULDBLOCK", Some "EAGAIN", "Operation would block");
   ("ENOTCONN", None, "Socket is not connected");
   ("ESOCKTNOSUPPORT", None, "Socket type not supported");
   ("EISCONN", None, "Socket is already connected");
   ("ECANCELED", None, "Operation canceled");
   ("ENOTRECOVERABLE", None, "State not recoverable");
   ("EOWNERDEAD", None, "Previous owner died");
   ("ESTRPIPE", None, "Streams pipe error");
   ("EOPNOTSUPP", Some "ENOTSUP", "Operation not supported on socket");
   ("EOVERFLOW", None, "Value too large for defined data type");
   ("EMSGSIZE", None, "Message too long");
   ("ETIMEDOUT", None, "Connection timed out")].
