(* ofp_strerror, src/ofp_errno.c. *)
From Coq Require Import String.
From Verif Require Import Base.

(* ofp_errno.c:10-125 ofp_errmsgs with the macro named in the comment of each line *)
Definition errmsgs : list (string * string) := [
  ("", "");
  ("OFP_EPERM", "Operation not permitted");
  ("OFP_ENOENT", "No such file or directory");
  ("OFP_ESRCH", "No such process");
  ("OFP_EINTR", "Interrupted system call");
  ("OFP_EIO", "Input/output error");
  ("OFP_ENXIO", "Device not configured");
  ("OFP_E2BIG", "Argument list too long");
  ("OFP_ENOEXEC", "Exec format error");
  ("OFP_EBADF", "Bad file descriptor");
  ("OFP_ECHILD", "No child processes");
  ("OFP_EDEADLK", "Resource deadlock avoided");
  ("OFP_ENOMEM", "Cannot allocate memory");
  ("OFP_EACCES", "Permission denied");
  ("OFP_EFAULT", "Bad address");
  ("OFP_ENOTBLK", "Block device required");
  ("OFP_EBUSY", "Device busy");
  ("OFP_EEXIST", "File exists");
  ("OFP_EXDEV", "Cross-device link");
  ("OFP_ENODEV", "Operation not supported by device");
  ("OFP_ENOTDIR", "Not a directory");
  ("OFP_EISDIR", "Is a directory");
  ("OFP_EINVAL", "Invalid argument");
  ("OFP_ENFILE", "Too many open files in system");
  ("OFP_EMFILE", "Too many open files");
  ("OFP_ENOTTY", "Inappropriate ioctl for device");
  ("OFP_ETXTBSY", "Text file busy");
  ("OFP_EFBIG", "File too large");
  ("OFP_ENOSPC", "No space left on device");
  ("OFP_ESPIPE", "Illegal seek");
  ("OFP_EROFS", "Read-only filesystem");
  ("OFP_EMLINK", "Too many links");
  ("OFP_EPIPE", "Broken pipe");
  ("OFP_EDOM", "Numerical argument out of domain");
  ("OFP_ERANGE", "Result too large");
  ("OFP_EAGAIN", "Resource temporarily unavailable");
  ("OFP_EINPROGRESS", "Operation now in progress");
  ("OFP_EALREADY", "Operation already in progress");
  ("OFP_ENOTSOCK", "Socket operation on non-socket");
  ("OFP_EDESTADDRREQ", "Destination address required");
  ("OFP_EMSGSIZE", "Message too long");
  ("OFP_EPROTOTYPE", "Protocol wrong type for socket");
  ("OFP_ENOPROTOOPT", "Protocol not available");
  ("OFP_EPROTONOSUPPORT", "Protocol not supported");
  ("OFP_ESOCKTNOSUPPORT", "Socket type not supported");
  ("OFP_ENOTSUP", "Operation not supported");
  ("OFP_EPFNOSUPPORT", "Protocol family not supported");
  ("OFP_EAFNOSUPPORT", "Address family not supported by protocol family");
  ("OFP_EADDRINUSE", "Address already in use");
  ("OFP_EADDRNOTAVAIL", "Can't assign requested address");
  ("OFP_ENETDOWN", "Network is down");
  ("OFP_ENETUNREACH", "Network is unreachable");
  ("OFP_ENETRESET", "Network dropped connection on reset");
  ("OFP_ECONNABORTED", "Software caused connection abort");
  ("OFP_ECONNRESET", "Connection reset by peer");
  ("OFP_ENOBUFS", "No buffer space available");
  ("OFP_EISCONN", "Socket is already connected");
  ("OFP_ENOTCONN", "Socket is not connected");
  ("OFP_ESHUTDOWN", "Can't send after socket shutdown");
  ("OFP_ETOOMANYREFS", "Too many references: can't splice");
  ("OFP_ETIMEDOUT", "Operation timed out");
  ("OFP_ECONNREFUSED", "Connection refused");
  ("OFP_ELOOP", "Too many levels of symbolic links");
  ("OFP_ENAMETOOLONG", "File name too long");
  ("OFP_EHOSTDOWN", "Host is down");
  ("OFP_EHOSTUNREACH", "No route to host");
  ("OFP_ENOTEMPTY", "Directory not empty");
  ("OFP_EPROCLIM", "Too many processes");
  ("OFP_EUSERS", "Too many users");
  ("OFP_EDQUOT", "Disc quota exceeded");
  ("OFP_ESTALE", "Stale NFS file handle");
  ("OFP_EREMOTE", "Too many levels of remote in path");
  ("OFP_EBADRPC", "RPC struct is bad");
  ("OFP_ERPCMISMATCH", "RPC version wrong");
  ("OFP_EPROGUNAVAIL", "RPC prog. not avail");
  ("OFP_EPROGMISMATCH", "Program version wrong");
  ("OFP_EPROCUNAVAIL", "Bad procedure for program");
  ("OFP_ENOLCK", "No locks available");
  ("OFP_ENOSYS", "Function not implemented");
  ("OFP_EFTYPE", "Inappropriate file type or format");
  ("OFP_EAUTH", "Authentication error");
  ("OFP_ENEEDAUTH", "Need authenticator");
  ("OFP_EIDRM", "Identifier removed");
  ("OFP_ENOMSG", "No message of desired type");
  ("OFP_EOVERFLOW", "Value too large to be stored in data type");
  ("OFP_ECANCELED", "Operation canceled");
  ("OFP_EILSEQ", "Illegal byte sequence");
  ("OFP_ENOATTR", "Attribute not found");
  ("OFP_EDOOFUS", "Programming error");
  ("OFP_EBADMSG", "Bad message");
  ("OFP_EMULTIHOP", "Multihop attempted");
  ("OFP_ENOLINK", "Link has been severed");
  ("OFP_EPROTO", "Protocol error");
  ("OFP_ENOTCAPABLE", "Capabilities insufficient");
  ("OFP_ECAPMODE", "Not permitted in capability mode")]%string.

(* ofp_errno.h:171 *)
Definition OFP_ELAST := 94.

(* ofp_errno.c:129-138. Negating INT_MIN overflows; an index outside the table is
   undefined. *)
Definition errstep (n : Z) : outcome string :=
  if n >? OFP_ELAST then Ret EmptyString
  else if n <? 0 then UB
  else match nth_error errmsgs (Z.to_nat n) with Some (_, m) => Ret m | None => UB end.
Definition strerror (errnum : Z) : outcome string :=
  if errnum <? 0 then if errnum =? INT_MIN then UB else errstep (- errnum) else errstep errnum.

(* ofp_errno.h: the numbers of the error macros (OFP_EOPNOTSUPP is listed under
   its alias OFP_ENOTSUP, which the table names; OFP_EWOULDBLOCK is OFP_EAGAIN) *)
Definition errnos : list (string * Z) := [
  ("OFP_EPERM", 1);
  ("OFP_ENOENT", 2);
  ("OFP_ESRCH", 3);
  ("OFP_EINTR", 4);
  ("OFP_EIO", 5);
  ("OFP_ENXIO", 6);
  ("OFP_E2BIG", 7);
  ("OFP_ENOEXEC", 8);
  ("OFP_EBADF", 9);
  ("OFP_ECHILD", 10);
  ("OFP_EDEADLK", 11);
  ("OFP_ENOMEM", 12);
  ("OFP_EACCES", 13);
  ("OFP_EFAULT", 14);
  ("OFP_ENOTBLK", 15);
  ("OFP_EBUSY", 16);
  ("OFP_EEXIST", 17);
  ("OFP_EXDEV", 18);
  ("OFP_ENODEV", 19);
  ("OFP_ENOTDIR", 20);
  ("OFP_EISDIR", 21);
  ("OFP_EINVAL", 22);
  ("OFP_ENFILE", 23);
  ("OFP_EMFILE", 24);
  ("OFP_ENOTTY", 25);
  ("OFP_ETXTBSY", 26);
  ("OFP_EFBIG", 27);
  ("OFP_ENOSPC", 28);
  ("OFP_ESPIPE", 29);
  ("OFP_EROFS", 30);
  ("OFP_EMLINK", 31);
  ("OFP_EPIPE", 32);
  ("OFP_EDOM", 33);
  ("OFP_ERANGE", 34);
  ("OFP_EAGAIN", 35);
  ("OFP_EINPROGRESS", 36);
  ("OFP_EALREADY", 37);
  ("OFP_ENOTSOCK", 38);
  ("OFP_EDESTADDRREQ", 39);
  ("OFP_EMSGSIZE", 40);
  ("OFP_EPROTOTYPE", 41);
  ("OFP_ENOPROTOOPT", 42);
  ("OFP_EPROTONOSUPPORT", 43);
  ("OFP_ESOCKTNOSUPPORT", 44);
  ("OFP_ENOTSUP", 45);
  ("OFP_EPFNOSUPPORT", 46);
  ("OFP_EAFNOSUPPORT", 47);
  ("OFP_EADDRINUSE", 48);
  ("OFP_EADDRNOTAVAIL", 49);
  ("OFP_ENETDOWN", 50);
  ("OFP_ENETUNREACH", 51);
  ("OFP_ENETRESET", 52);
  ("OFP_ECONNABORTED", 53);
  ("OFP_ECONNRESET", 54);
  ("OFP_ENOBUFS", 55);
  ("OFP_EISCONN", 56);
  ("OFP_ENOTCONN", 57);
  ("OFP_ESHUTDOWN", 58);
  ("OFP_ETOOMANYREFS", 59);
  ("OFP_ETIMEDOUT", 60);
  ("OFP_ECONNREFUSED", 61);
  ("OFP_ELOOP", 62);
  ("OFP_ENAMETOOLONG", 63);
  ("OFP_EHOSTDOWN", 64);
  ("OFP_EHOSTUNREACH", 65);
  ("OFP_ENOTEMPTY", 66);
  ("OFP_EPROCLIM", 67);
  ("OFP_EUSERS", 68);
  ("OFP_EDQUOT", 69);
  ("OFP_ESTALE", 70);
  ("OFP_EREMOTE", 71);
  ("OFP_EBADRPC", 72);
  ("OFP_ERPCMISMATCH", 73);
  ("OFP_EPROGUNAVAIL", 74);
  ("OFP_EPROGMISMATCH", 75);
  ("OFP_EPROCUNAVAIL", 76);
  ("OFP_ENOLCK", 77);
  ("OFP_ENOSYS", 78);
  ("OFP_EFTYPE", 79);
  ("OFP_EAUTH", 80);
  ("OFP_ENEEDAUTH", 81);
  ("OFP_EIDRM", 82);
  ("OFP_ENOMSG", 83);
  ("OFP_EOVERFLOW", 84);
  ("OFP_ECANCELED", 85);
  ("OFP_EILSEQ", 86);
  ("OFP_ENOATTR", 87);
  ("OFP_EDOOFUS", 88);
  ("OFP_EBADMSG", 89);
  ("OFP_EMULTIHOP", 90);
  ("OFP_ENOLINK", 91);
  ("OFP_EPROTO", 92);
  ("OFP_ENOTCAPABLE", 93);
  ("OFP_ECAPMODE", 94)]%string.
