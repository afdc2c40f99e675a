(** * SourceSpecs: specs.py as syntax trees.
    Written by source/gen.py from the text of /repo/iso8583; not edited by hand. *)
From Verif Require Import PyAst.
Local Open Scope string_scope.
Local Open Scope Z_scope.
Local Open Scope list_scope.

(** specs.py:474-1392 *)
Definition src_default : expr := Dict [
  ((Constant (CStr "h")), (Dict [((Constant (CStr "data_enc")), (Constant (CStr "ascii"))); ((Constant (CStr "len_enc")), (Constant (CStr "ascii"))); ((Constant (CStr "len_type")), (Constant (CInt 0))); ((Constant (CStr "max_len")), (Constant (CInt 0))); ((Constant (CStr "desc")), (Constant (CStr "Message Header")))]));
  ((Constant (CStr "t")), (Dict [((Constant (CStr "data_enc")), (Constant (CStr "ascii"))); ((Constant (CStr "len_enc")), (Constant (CStr "ascii"))); ((Constant (CStr "len_type")), (Constant (CInt 0))); ((Constant (CStr "max_len")), (Constant (CInt 4))); ((Constant (CStr "desc")), (Constant (CStr "Message Type")))]));
  ((Constant (CStr "p")), (Dict [((Constant (CStr "data_enc")), (Constant (CStr "b"))); ((Constant (CStr "len_enc")), (Constant (CStr "ascii"))); ((Constant (CStr "len_type")), (Constant (CInt 0))); ((Constant (CStr "max_len")), (Constant (CInt 8))); ((Constant (CStr "desc")), (Constant (CStr "Bitmap, Primary")))]));
  ((Constant (CStr "1")), (Dict [((Constant (CStr "data_enc")), (Constant (CStr "b"))); ((Constant (CStr "len_enc")), (Constant (CStr "ascii"))); ((Constant (CStr "len_type")), (Constant (CInt 0))); ((Constant (CStr "max_len")), (Constant (CInt 8))); ((Constant (CStr "desc")), (Constant (CStr "Bitmap, Secondary")))]));
  ((Constant (CStr "2")), (Dict [((Constant (CStr "data_enc")), (Constant (CStr "ascii"))); ((Constant (CStr "len_enc")), (Constant (CStr "ascii"))); ((Constant (CStr "len_type")), (Constant (CInt 2))); ((Constant (CStr "max_len")), (Constant (CInt 19))); ((Constant (CStr "desc")), (Constant (CStr "Primary Account Number (PAN)")))]));
  ((Constant (CStr "3")), (Dict [((Constant (CStr "data_enc")), (Constant (CStr "ascii"))); ((Constant (CStr "len_enc")), (Constant (CStr "ascii"))); ((Constant (CStr "len_type")), (Constant (CInt 0))); ((Constant (CStr "max_len")), (Constant (CInt 6))); ((Constant (CStr "desc")), (Constant (CStr "Processing Code")))]));
  ((Constant (CStr "4")), (Dict [((Constant (CStr "data_enc")), (Constant (CStr "ascii"))); ((Constant (CStr "len_enc")), (Constant (CStr "ascii"))); ((Constant (CStr "len_type")), (Constant (CInt 0))); ((Constant (CStr "max_len")), (Constant (CInt 12))); ((Constant (CStr "desc")), (Constant (CStr "Amount, Transaction")))]));
  ((Constant (CStr "5")), (Dict [((Constant (CStr "data_enc")), (Constant (CStr "ascii"))); ((Constant (CStr "len_enc")), (Constant (CStr "ascii"))); ((Constant (CStr "len_type")), (Constant (CInt 0))); ((Constant (CStr "max_len")), (Constant (CInt 12))); ((Constant (CStr "desc")), (Constant (CStr "Amount, Settlement")))]));
  ((Constant (CStr "6")), (Dict [((Constant (CStr "data_enc")), (Constant (CStr "ascii"))); ((Constant (CStr "len_enc")), (Constant (CStr "ascii"))); ((Constant (CStr "len_type")), (Constant (CInt 0))); ((Constant (CStr "max_len")), (Constant (CInt 12))); ((Constant (CStr "desc")), (Constant (CStr "Amount, Cardholder Billing")))]));
  ((Constant (CStr "7")), (Dict [((Constant (CStr "data_enc")), (Constant (CStr "ascii"))); ((Constant (CStr "len_enc")), (Constant (CStr "ascii"))); ((Constant (CStr "len_type")), (Constant (CInt 0))); ((Constant (CStr "max_len")), (Constant (CInt 10))); ((Constant (CStr "desc")), (Constant (CStr "Transmission Date and Time")))]));
  ((Constant (CStr "8")), (Dict [((Constant (CStr "data_enc")), (Constant (CStr "ascii"))); ((Constant (CStr "len_enc")), (Constant (CStr "ascii"))); ((Constant (CStr "len_type")), (Constant (CInt 0))); ((Constant (CStr "max_len")), (Constant (CInt 8))); ((Constant (CStr "desc")), (Constant (CStr "Amount, Cardholder Billing Fee")))]));
  ((Constant (CStr "9")), (Dict [((Constant (CStr "data_enc")), (Constant (CStr "ascii"))); ((Constant (CStr "len_enc")), (Constant (CStr "ascii"))); ((Constant (CStr "len_type")), (Constant (CInt 0))); ((Constant (CStr "max_len")), (Constant (CInt 8))); ((Constant (CStr "desc")), (Constant (CStr "Conversion Rate, Settlement")))]));
  ((Constant (CStr "10")), (Dict [((Constant (CStr "data_enc")), (Constant (CStr "ascii"))); ((Constant (CStr "len_enc")), (Constant (CStr "ascii"))); ((Constant (CStr "len_type")), (Constant (CInt 0))); ((Constant (CStr "max_len")), (Constant (CInt 8))); ((Constant (CStr "desc")), (Constant (CStr "Conversion Rate, Cardholder Billing")))]));
  ((Constant (CStr "11")), (Dict [((Constant (CStr "data_enc")), (Constant (CStr "ascii"))); ((Constant (CStr "len_enc")), (Constant (CStr "ascii"))); ((Constant (CStr "len_type")), (Constant (CInt 0))); ((Constant (CStr "max_len")), (Constant (CInt 6))); ((Constant (CStr "desc")), (Constant (CStr "System Trace Audit Number")))]));
  ((Constant (CStr "12")), (Dict [((Constant (CStr "data_enc")), (Constant (CStr "ascii"))); ((Constant (CStr "len_enc")), (Constant (CStr "ascii"))); ((Constant (CStr "len_type")), (Constant (CInt 0))); ((Constant (CStr "max_len")), (Constant (CInt 6))); ((Constant (CStr "desc")), (Constant (CStr "Time, Local Transaction")))]));
  ((Constant (CStr "13")), (Dict [((Constant (CStr "data_enc")), (Constant (CStr "ascii"))); ((Constant (CStr "len_enc")), (Constant (CStr "ascii"))); ((Constant (CStr "len_type")), (Constant (CInt 0))); ((Constant (CStr "max_len")), (Constant (CInt 4))); ((Constant (CStr "desc")), (Constant (CStr "Date, Local Transaction")))]));
  ((Constant (CStr "14")), (Dict [((Constant (CStr "data_enc")), (Constant (CStr "ascii"))); ((Constant (CStr "len_enc")), (Constant (CStr "ascii"))); ((Constant (CStr "len_type")), (Constant (CInt 0))); ((Constant (CStr "max_len")), (Constant (CInt 4))); ((Constant (CStr "desc")), (Constant (CStr "Date, Expiration")))]));
  ((Constant (CStr "15")), (Dict [((Constant (CStr "data_enc")), (Constant (CStr "ascii"))); ((Constant (CStr "len_enc")), (Constant (CStr "ascii"))); ((Constant (CStr "len_type")), (Constant (CInt 0))); ((Constant (CStr "max_len")), (Constant (CInt 4))); ((Constant (CStr "desc")), (Constant (CStr "Date, Settlement")))]));
  ((Constant (CStr "16")), (Dict [((Constant (CStr "data_enc")), (Constant (CStr "ascii"))); ((Constant (CStr "len_enc")), (Constant (CStr "ascii"))); ((Constant (CStr "len_type")), (Constant (CInt 0))); ((Constant (CStr "max_len")), (Constant (CInt 4))); ((Constant (CStr "desc")), (Constant (CStr "Date, Conversion")))]));
  ((Constant (CStr "17")), (Dict [((Constant (CStr "data_enc")), (Constant (CStr "ascii"))); ((Constant (CStr "len_enc")), (Constant (CStr "ascii"))); ((Constant (CStr "len_type")), (Constant (CInt 0))); ((Constant (CStr "max_len")), (Constant (CInt 4))); ((Constant (CStr "desc")), (Constant (CStr "Date, Capture")))]));
  ((Constant (CStr "18")), (Dict [((Constant (CStr "data_enc")), (Constant (CStr "ascii"))); ((Constant (CStr "len_enc")), (Constant (CStr "ascii"))); ((Constant (CStr "len_type")), (Constant (CInt 0))); ((Constant (CStr "max_len")), (Constant (CInt 4))); ((Constant (CStr "desc")), (Constant (CStr "Merchant Type")))]));
  ((Constant (CStr "19")), (Dict [((Constant (CStr "data_enc")), (Constant (CStr "ascii"))); ((Constant (CStr "len_enc")), (Constant (CStr "ascii"))); ((Constant (CStr "len_type")), (Constant (CInt 0))); ((Constant (CStr "max_len")), (Constant (CInt 3))); ((Constant (CStr "desc")), (Constant (CStr "Acquiring Institution Country Code")))]));
  ((Constant (CStr "20")), (Dict [((Constant (CStr "data_enc")), (Constant (CStr "ascii"))); ((Constant (CStr "len_enc")), (Constant (CStr "ascii"))); ((Constant (CStr "len_type")), (Constant (CInt 0))); ((Constant (CStr "max_len")), (Constant (CInt 3))); ((Constant (CStr "desc")), (Constant (CStr "PAN Country Code")))]));
  ((Constant (CStr "21")), (Dict [((Constant (CStr "data_enc")), (Constant (CStr "ascii"))); ((Constant (CStr "len_enc")), (Constant (CStr "ascii"))); ((Constant (CStr "len_type")), (Constant (CInt 0))); ((Constant (CStr "max_len")), (Constant (CInt 3))); ((Constant (CStr "desc")), (Constant (CStr "Forwarding Institution Country Code")))]));
  ((Constant (CStr "22")), (Dict [((Constant (CStr "data_enc")), (Constant (CStr "ascii"))); ((Constant (CStr "len_enc")), (Constant (CStr "ascii"))); ((Constant (CStr "len_type")), (Constant (CInt 0))); ((Constant (CStr "max_len")), (Constant (CInt 3))); ((Constant (CStr "desc")), (Constant (CStr "Point-of-Service Entry Mode")))]));
  ((Constant (CStr "23")), (Dict [((Constant (CStr "data_enc")), (Constant (CStr "ascii"))); ((Constant (CStr "len_enc")), (Constant (CStr "ascii"))); ((Constant (CStr "len_type")), (Constant (CInt 0))); ((Constant (CStr "max_len")), (Constant (CInt 3))); ((Constant (CStr "desc")), (Constant (CStr "PAN Sequence Number")))]));
  ((Constant (CStr "24")), (Dict [((Constant (CStr "data_enc")), (Constant (CStr "ascii"))); ((Constant (CStr "len_enc")), (Constant (CStr "ascii"))); ((Constant (CStr "len_type")), (Constant (CInt 0))); ((Constant (CStr "max_len")), (Constant (CInt 3))); ((Constant (CStr "desc")), (Constant (CStr "Network International ID (NII)")))]));
  ((Constant (CStr "25")), (Dict [((Constant (CStr "data_enc")), (Constant (CStr "ascii"))); ((Constant (CStr "len_enc")), (Constant (CStr "ascii"))); ((Constant (CStr "len_type")), (Constant (CInt 0))); ((Constant (CStr "max_len")), (Constant (CInt 2))); ((Constant (CStr "desc")), (Constant (CStr "Point-of-Service Condition Code")))]));
  ((Constant (CStr "26")), (Dict [((Constant (CStr "data_enc")), (Constant (CStr "ascii"))); ((Constant (CStr "len_enc")), (Constant (CStr "ascii"))); ((Constant (CStr "len_type")), (Constant (CInt 0))); ((Constant (CStr "max_len")), (Constant (CInt 2))); ((Constant (CStr "desc")), (Constant (CStr "Point-of-Service Capture Code")))]));
  ((Constant (CStr "27")), (Dict [((Constant (CStr "data_enc")), (Constant (CStr "ascii"))); ((Constant (CStr "len_enc")), (Constant (CStr "ascii"))); ((Constant (CStr "len_type")), (Constant (CInt 0))); ((Constant (CStr "max_len")), (Constant (CInt 1))); ((Constant (CStr "desc")), (Constant (CStr "Authorizing ID Response Length")))]));
  ((Constant (CStr "28")), (Dict [((Constant (CStr "data_enc")), (Constant (CStr "ascii"))); ((Constant (CStr "len_enc")), (Constant (CStr "ascii"))); ((Constant (CStr "len_type")), (Constant (CInt 0))); ((Constant (CStr "max_len")), (Constant (CInt 9))); ((Constant (CStr "desc")), (Constant (CStr "Amount, Transaction Fee")))]));
  ((Constant (CStr "29")), (Dict [((Constant (CStr "data_enc")), (Constant (CStr "ascii"))); ((Constant (CStr "len_enc")), (Constant (CStr "ascii"))); ((Constant (CStr "len_type")), (Constant (CInt 0))); ((Constant (CStr "max_len")), (Constant (CInt 9))); ((Constant (CStr "desc")), (Constant (CStr "Amount, Settlement Fee")))]));
  ((Constant (CStr "30")), (Dict [((Constant (CStr "data_enc")), (Constant (CStr "ascii"))); ((Constant (CStr "len_enc")), (Constant (CStr "ascii"))); ((Constant (CStr "len_type")), (Constant (CInt 0))); ((Constant (CStr "max_len")), (Constant (CInt 9))); ((Constant (CStr "desc")), (Constant (CStr "Amount, Transaction Processing Fee")))]));
  ((Constant (CStr "31")), (Dict [((Constant (CStr "data_enc")), (Constant (CStr "ascii"))); ((Constant (CStr "len_enc")), (Constant (CStr "ascii"))); ((Constant (CStr "len_type")), (Constant (CInt 0))); ((Constant (CStr "max_len")), (Constant (CInt 9))); ((Constant (CStr "desc")), (Constant (CStr "Amount, Settlement Processing Fee")))]));
  ((Constant (CStr "32")), (Dict [((Constant (CStr "data_enc")), (Constant (CStr "ascii"))); ((Constant (CStr "len_enc")), (Constant (CStr "ascii"))); ((Constant (CStr "len_type")), (Constant (CInt 2))); ((Constant (CStr "max_len")), (Constant (CInt 11))); ((Constant (CStr "desc")), (Constant (CStr "Acquiring Institution ID Code")))]));
  ((Constant (CStr "33")), (Dict [((Constant (CStr "data_enc")), (Constant (CStr "ascii"))); ((Constant (CStr "len_enc")), (Constant (CStr "ascii"))); ((Constant (CStr "len_type")), (Constant (CInt 2))); ((Constant (CStr "max_len")), (Constant (CInt 11))); ((Constant (CStr "desc")), (Constant (CStr "Forwarding Institution ID Code")))]));
  ((Constant (CStr "34")), (Dict [((Constant (CStr "data_enc")), (Constant (CStr "ascii"))); ((Constant (CStr "len_enc")), (Constant (CStr "ascii"))); ((Constant (CStr "len_type")), (Constant (CInt 2))); ((Constant (CStr "max_len")), (Constant (CInt 28))); ((Constant (CStr "desc")), (Constant (CStr "Primary Account Number, Extended")))]));
  ((Constant (CStr "35")), (Dict [((Constant (CStr "data_enc")), (Constant (CStr "ascii"))); ((Constant (CStr "len_enc")), (Constant (CStr "ascii"))); ((Constant (CStr "len_type")), (Constant (CInt 2))); ((Constant (CStr "max_len")), (Constant (CInt 37))); ((Constant (CStr "desc")), (Constant (CStr "Track 2 Data")))]));
  ((Constant (CStr "36")), (Dict [((Constant (CStr "data_enc")), (Constant (CStr "ascii"))); ((Constant (CStr "len_enc")), (Constant (CStr "ascii"))); ((Constant (CStr "len_type")), (Constant (CInt 3))); ((Constant (CStr "max_len")), (Constant (CInt 104))); ((Constant (CStr "desc")), (Constant (CStr "Track 3 Data")))]));
  ((Constant (CStr "37")), (Dict [((Constant (CStr "data_enc")), (Constant (CStr "ascii"))); ((Constant (CStr "len_enc")), (Constant (CStr "ascii"))); ((Constant (CStr "len_type")), (Constant (CInt 0))); ((Constant (CStr "max_len")), (Constant (CInt 12))); ((Constant (CStr "desc")), (Constant (CStr "Retrieval Reference Number")))]));
  ((Constant (CStr "38")), (Dict [((Constant (CStr "data_enc")), (Constant (CStr "ascii"))); ((Constant (CStr "len_enc")), (Constant (CStr "ascii"))); ((Constant (CStr "len_type")), (Constant (CInt 0))); ((Constant (CStr "max_len")), (Constant (CInt 6))); ((Constant (CStr "desc")), (Constant (CStr "Authorization ID Response")))]));
  ((Constant (CStr "39")), (Dict [((Constant (CStr "data_enc")), (Constant (CStr "ascii"))); ((Constant (CStr "len_enc")), (Constant (CStr "ascii"))); ((Constant (CStr "len_type")), (Constant (CInt 0))); ((Constant (CStr "max_len")), (Constant (CInt 2))); ((Constant (CStr "desc")), (Constant (CStr "Response Code")))]));
  ((Constant (CStr "40")), (Dict [((Constant (CStr "data_enc")), (Constant (CStr "ascii"))); ((Constant (CStr "len_enc")), (Constant (CStr "ascii"))); ((Constant (CStr "len_type")), (Constant (CInt 0))); ((Constant (CStr "max_len")), (Constant (CInt 3))); ((Constant (CStr "desc")), (Constant (CStr "Service Restriction Code")))]));
  ((Constant (CStr "41")), (Dict [((Constant (CStr "data_enc")), (Constant (CStr "ascii"))); ((Constant (CStr "len_enc")), (Constant (CStr "ascii"))); ((Constant (CStr "len_type")), (Constant (CInt 0))); ((Constant (CStr "max_len")), (Constant (CInt 8))); ((Constant (CStr "desc")), (Constant (CStr "Card Acceptor Terminal ID")))]));
  ((Constant (CStr "42")), (Dict [((Constant (CStr "data_enc")), (Constant (CStr "ascii"))); ((Constant (CStr "len_enc")), (Constant (CStr "ascii"))); ((Constant (CStr "len_type")), (Constant (CInt 0))); ((Constant (CStr "max_len")), (Constant (CInt 15))); ((Constant (CStr "desc")), (Constant (CStr "Card Acceptor ID Code")))]));
  ((Constant (CStr "43")), (Dict [((Constant (CStr "data_enc")), (Constant (CStr "ascii"))); ((Constant (CStr "len_enc")), (Constant (CStr "ascii"))); ((Constant (CStr "len_type")), (Constant (CInt 0))); ((Constant (CStr "max_len")), (Constant (CInt 40))); ((Constant (CStr "desc")), (Constant (CStr "Card Acceptor Name/Location")))]));
  ((Constant (CStr "44")), (Dict [((Constant (CStr "data_enc")), (Constant (CStr "ascii"))); ((Constant (CStr "len_enc")), (Constant (CStr "ascii"))); ((Constant (CStr "len_type")), (Constant (CInt 2))); ((Constant (CStr "max_len")), (Constant (CInt 25))); ((Constant (CStr "desc")), (Constant (CStr "Additional Response Data")))]));
  ((Constant (CStr "45")), (Dict [((Constant (CStr "data_enc")), (Constant (CStr "ascii"))); ((Constant (CStr "len_enc")), (Constant (CStr "ascii"))); ((Constant (CStr "len_type")), (Constant (CInt 2))); ((Constant (CStr "max_len")), (Constant (CInt 76))); ((Constant (CStr "desc")), (Constant (CStr "Track 1 Data")))]));
  ((Constant (CStr "46")), (Dict [((Constant (CStr "data_enc")), (Constant (CStr "ascii"))); ((Constant (CStr "len_enc")), (Constant (CStr "ascii"))); ((Constant (CStr "len_type")), (Constant (CInt 3))); ((Constant (CStr "max_len")), (Constant (CInt 999))); ((Constant (CStr "desc")), (Constant (CStr "Additional Data - ISO")))]));
  ((Constant (CStr "47")), (Dict [((Constant (CStr "data_enc")), (Constant (CStr "ascii"))); ((Constant (CStr "len_enc")), (Constant (CStr "ascii"))); ((Constant (CStr "len_type")), (Constant (CInt 3))); ((Constant (CStr "max_len")), (Constant (CInt 999))); ((Constant (CStr "desc")), (Constant (CStr "Additional Data - National")))]));
  ((Constant (CStr "48")), (Dict [((Constant (CStr "data_enc")), (Constant (CStr "ascii"))); ((Constant (CStr "len_enc")), (Constant (CStr "ascii"))); ((Constant (CStr "len_type")), (Constant (CInt 3))); ((Constant (CStr "max_len")), (Constant (CInt 999))); ((Constant (CStr "desc")), (Constant (CStr "Additional Data - Private")))]));
  ((Constant (CStr "49")), (Dict [((Constant (CStr "data_enc")), (Constant (CStr "ascii"))); ((Constant (CStr "len_enc")), (Constant (CStr "ascii"))); ((Constant (CStr "len_type")), (Constant (CInt 0))); ((Constant (CStr "max_len")), (Constant (CInt 3))); ((Constant (CStr "desc")), (Constant (CStr "Currency Code, Transaction")))]));
  ((Constant (CStr "50")), (Dict [((Constant (CStr "data_enc")), (Constant (CStr "ascii"))); ((Constant (CStr "len_enc")), (Constant (CStr "ascii"))); ((Constant (CStr "len_type")), (Constant (CInt 0))); ((Constant (CStr "max_len")), (Constant (CInt 3))); ((Constant (CStr "desc")), (Constant (CStr "Currency Code, Settlement")))]));
  ((Constant (CStr "51")), (Dict [((Constant (CStr "data_enc")), (Constant (CStr "ascii"))); ((Constant (CStr "len_enc")), (Constant (CStr "ascii"))); ((Constant (CStr "len_type")), (Constant (CInt 0))); ((Constant (CStr "max_len")), (Constant (CInt 3))); ((Constant (CStr "desc")), (Constant (CStr "Currency Code, Cardholder Billing")))]));
  ((Constant (CStr "52")), (Dict [((Constant (CStr "data_enc")), (Constant (CStr "b"))); ((Constant (CStr "len_enc")), (Constant (CStr "ascii"))); ((Constant (CStr "len_type")), (Constant (CInt 0))); ((Constant (CStr "max_len")), (Constant (CInt 8))); ((Constant (CStr "desc")), (Constant (CStr "PIN")))]));
  ((Constant (CStr "53")), (Dict [((Constant (CStr "data_enc")), (Constant (CStr "ascii"))); ((Constant (CStr "len_enc")), (Constant (CStr "ascii"))); ((Constant (CStr "len_type")), (Constant (CInt 0))); ((Constant (CStr "max_len")), (Constant (CInt 16))); ((Constant (CStr "desc")), (Constant (CStr "Security-Related Control Information")))]));
  ((Constant (CStr "54")), (Dict [((Constant (CStr "data_enc")), (Constant (CStr "ascii"))); ((Constant (CStr "len_enc")), (Constant (CStr "ascii"))); ((Constant (CStr "len_type")), (Constant (CInt 3))); ((Constant (CStr "max_len")), (Constant (CInt 240))); ((Constant (CStr "desc")), (Constant (CStr "Additional Amounts")))]));
  ((Constant (CStr "55")), (Dict [((Constant (CStr "data_enc")), (Constant (CStr "b"))); ((Constant (CStr "len_enc")), (Constant (CStr "ascii"))); ((Constant (CStr "len_type")), (Constant (CInt 3))); ((Constant (CStr "max_len")), (Constant (CInt 255))); ((Constant (CStr "desc")), (Constant (CStr "ICC data")))]));
  ((Constant (CStr "56")), (Dict [((Constant (CStr "data_enc")), (Constant (CStr "ascii"))); ((Constant (CStr "len_enc")), (Constant (CStr "ascii"))); ((Constant (CStr "len_type")), (Constant (CInt 3))); ((Constant (CStr "max_len")), (Constant (CInt 999))); ((Constant (CStr "desc")), (Constant (CStr "Reserved ISO")))]));
  ((Constant (CStr "57")), (Dict [((Constant (CStr "data_enc")), (Constant (CStr "ascii"))); ((Constant (CStr "len_enc")), (Constant (CStr "ascii"))); ((Constant (CStr "len_type")), (Constant (CInt 3))); ((Constant (CStr "max_len")), (Constant (CInt 999))); ((Constant (CStr "desc")), (Constant (CStr "Reserved National")))]));
  ((Constant (CStr "58")), (Dict [((Constant (CStr "data_enc")), (Constant (CStr "ascii"))); ((Constant (CStr "len_enc")), (Constant (CStr "ascii"))); ((Constant (CStr "len_type")), (Constant (CInt 3))); ((Constant (CStr "max_len")), (Constant (CInt 999))); ((Constant (CStr "desc")), (Constant (CStr "Reserved National")))]));
  ((Constant (CStr "59")), (Dict [((Constant (CStr "data_enc")), (Constant (CStr "ascii"))); ((Constant (CStr "len_enc")), (Constant (CStr "ascii"))); ((Constant (CStr "len_type")), (Constant (CInt 3))); ((Constant (CStr "max_len")), (Constant (CInt 999))); ((Constant (CStr "desc")), (Constant (CStr "Reserved National")))]));
  ((Constant (CStr "60")), (Dict [((Constant (CStr "data_enc")), (Constant (CStr "ascii"))); ((Constant (CStr "len_enc")), (Constant (CStr "ascii"))); ((Constant (CStr "len_type")), (Constant (CInt 3))); ((Constant (CStr "max_len")), (Constant (CInt 999))); ((Constant (CStr "desc")), (Constant (CStr "Reserved National")))]));
  ((Constant (CStr "61")), (Dict [((Constant (CStr "data_enc")), (Constant (CStr "ascii"))); ((Constant (CStr "len_enc")), (Constant (CStr "ascii"))); ((Constant (CStr "len_type")), (Constant (CInt 3))); ((Constant (CStr "max_len")), (Constant (CInt 999))); ((Constant (CStr "desc")), (Constant (CStr "Reserved Private")))]));
  ((Constant (CStr "62")), (Dict [((Constant (CStr "data_enc")), (Constant (CStr "ascii"))); ((Constant (CStr "len_enc")), (Constant (CStr "ascii"))); ((Constant (CStr "len_type")), (Constant (CInt 3))); ((Constant (CStr "max_len")), (Constant (CInt 999))); ((Constant (CStr "desc")), (Constant (CStr "Reserved Private")))]));
  ((Constant (CStr "63")), (Dict [((Constant (CStr "data_enc")), (Constant (CStr "ascii"))); ((Constant (CStr "len_enc")), (Constant (CStr "ascii"))); ((Constant (CStr "len_type")), (Constant (CInt 3))); ((Constant (CStr "max_len")), (Constant (CInt 999))); ((Constant (CStr "desc")), (Constant (CStr "Reserved Private")))]));
  ((Constant (CStr "64")), (Dict [((Constant (CStr "data_enc")), (Constant (CStr "b"))); ((Constant (CStr "len_enc")), (Constant (CStr "ascii"))); ((Constant (CStr "len_type")), (Constant (CInt 0))); ((Constant (CStr "max_len")), (Constant (CInt 8))); ((Constant (CStr "desc")), (Constant (CStr "MAC")))]));
  ((Constant (CStr "65")), (Dict [((Constant (CStr "data_enc")), (Constant (CStr "b"))); ((Constant (CStr "len_enc")), (Constant (CStr "ascii"))); ((Constant (CStr "len_type")), (Constant (CInt 0))); ((Constant (CStr "max_len")), (Constant (CInt 8))); ((Constant (CStr "desc")), (Constant (CStr "Bitmap, Extended")))]));
  ((Constant (CStr "66")), (Dict [((Constant (CStr "data_enc")), (Constant (CStr "ascii"))); ((Constant (CStr "len_enc")), (Constant (CStr "ascii"))); ((Constant (CStr "len_type")), (Constant (CInt 0))); ((Constant (CStr "max_len")), (Constant (CInt 1))); ((Constant (CStr "desc")), (Constant (CStr "Settlement Code")))]));
  ((Constant (CStr "67")), (Dict [((Constant (CStr "data_enc")), (Constant (CStr "ascii"))); ((Constant (CStr "len_enc")), (Constant (CStr "ascii"))); ((Constant (CStr "len_type")), (Constant (CInt 0))); ((Constant (CStr "max_len")), (Constant (CInt 2))); ((Constant (CStr "desc")), (Constant (CStr "Extended Payment Code")))]));
  ((Constant (CStr "68")), (Dict [((Constant (CStr "data_enc")), (Constant (CStr "ascii"))); ((Constant (CStr "len_enc")), (Constant (CStr "ascii"))); ((Constant (CStr "len_type")), (Constant (CInt 0))); ((Constant (CStr "max_len")), (Constant (CInt 3))); ((Constant (CStr "desc")), (Constant (CStr "Receiving Institution Country Code")))]));
  ((Constant (CStr "69")), (Dict [((Constant (CStr "data_enc")), (Constant (CStr "ascii"))); ((Constant (CStr "len_enc")), (Constant (CStr "ascii"))); ((Constant (CStr "len_type")), (Constant (CInt 0))); ((Constant (CStr "max_len")), (Constant (CInt 3))); ((Constant (CStr "desc")), (Constant (CStr "Settlement Institution Country Code")))]));
  ((Constant (CStr "70")), (Dict [((Constant (CStr "data_enc")), (Constant (CStr "ascii"))); ((Constant (CStr "len_enc")), (Constant (CStr "ascii"))); ((Constant (CStr "len_type")), (Constant (CInt 0))); ((Constant (CStr "max_len")), (Constant (CInt 3))); ((Constant (CStr "desc")), (Constant (CStr "Network Management Information Code")))]));
  ((Constant (CStr "71")), (Dict [((Constant (CStr "data_enc")), (Constant (CStr "ascii"))); ((Constant (CStr "len_enc")), (Constant (CStr "ascii"))); ((Constant (CStr "len_type")), (Constant (CInt 0))); ((Constant (CStr "max_len")), (Constant (CInt 4))); ((Constant (CStr "desc")), (Constant (CStr "Message Number")))]));
  ((Constant (CStr "72")), (Dict [((Constant (CStr "data_enc")), (Constant (CStr "ascii"))); ((Constant (CStr "len_enc")), (Constant (CStr "ascii"))); ((Constant (CStr "len_type")), (Constant (CInt 0))); ((Constant (CStr "max_len")), (Constant (CInt 4))); ((Constant (CStr "desc")), (Constant (CStr "Message Number, Last")))]));
  ((Constant (CStr "73")), (Dict [((Constant (CStr "data_enc")), (Constant (CStr "ascii"))); ((Constant (CStr "len_enc")), (Constant (CStr "ascii"))); ((Constant (CStr "len_type")), (Constant (CInt 0))); ((Constant (CStr "max_len")), (Constant (CInt 6))); ((Constant (CStr "desc")), (Constant (CStr "Date, Action")))]));
  ((Constant (CStr "74")), (Dict [((Constant (CStr "data_enc")), (Constant (CStr "ascii"))); ((Constant (CStr "len_enc")), (Constant (CStr "ascii"))); ((Constant (CStr "len_type")), (Constant (CInt 0))); ((Constant (CStr "max_len")), (Constant (CInt 10))); ((Constant (CStr "desc")), (Constant (CStr "Credits, Number")))]));
  ((Constant (CStr "75")), (Dict [((Constant (CStr "data_enc")), (Constant (CStr "ascii"))); ((Constant (CStr "len_enc")), (Constant (CStr "ascii"))); ((Constant (CStr "len_type")), (Constant (CInt 0))); ((Constant (CStr "max_len")), (Constant (CInt 10))); ((Constant (CStr "desc")), (Constant (CStr "Credits, Reversal Number")))]));
  ((Constant (CStr "76")), (Dict [((Constant (CStr "data_enc")), (Constant (CStr "ascii"))); ((Constant (CStr "len_enc")), (Constant (CStr "ascii"))); ((Constant (CStr "len_type")), (Constant (CInt 0))); ((Constant (CStr "max_len")), (Constant (CInt 10))); ((Constant (CStr "desc")), (Constant (CStr "Debits, Number")))]));
  ((Constant (CStr "77")), (Dict [((Constant (CStr "data_enc")), (Constant (CStr "ascii"))); ((Constant (CStr "len_enc")), (Constant (CStr "ascii"))); ((Constant (CStr "len_type")), (Constant (CInt 0))); ((Constant (CStr "max_len")), (Constant (CInt 10))); ((Constant (CStr "desc")), (Constant (CStr "Debits, Reversal Number")))]));
  ((Constant (CStr "78")), (Dict [((Constant (CStr "data_enc")), (Constant (CStr "ascii"))); ((Constant (CStr "len_enc")), (Constant (CStr "ascii"))); ((Constant (CStr "len_type")), (Constant (CInt 0))); ((Constant (CStr "max_len")), (Constant (CInt 10))); ((Constant (CStr "desc")), (Constant (CStr "Transfer, Number")))]));
  ((Constant (CStr "79")), (Dict [((Constant (CStr "data_enc")), (Constant (CStr "ascii"))); ((Constant (CStr "len_enc")), (Constant (CStr "ascii"))); ((Constant (CStr "len_type")), (Constant (CInt 0))); ((Constant (CStr "max_len")), (Constant (CInt 10))); ((Constant (CStr "desc")), (Constant (CStr "Transfer, Reversal Number")))]));
  ((Constant (CStr "80")), (Dict [((Constant (CStr "data_enc")), (Constant (CStr "ascii"))); ((Constant (CStr "len_enc")), (Constant (CStr "ascii"))); ((Constant (CStr "len_type")), (Constant (CInt 0))); ((Constant (CStr "max_len")), (Constant (CInt 10))); ((Constant (CStr "desc")), (Constant (CStr "Inquiries, Number")))]));
  ((Constant (CStr "81")), (Dict [((Constant (CStr "data_enc")), (Constant (CStr "ascii"))); ((Constant (CStr "len_enc")), (Constant (CStr "ascii"))); ((Constant (CStr "len_type")), (Constant (CInt 0))); ((Constant (CStr "max_len")), (Constant (CInt 10))); ((Constant (CStr "desc")), (Constant (CStr "Authorizations, Number")))]));
  ((Constant (CStr "82")), (Dict [((Constant (CStr "data_enc")), (Constant (CStr "ascii"))); ((Constant (CStr "len_enc")), (Constant (CStr "ascii"))); ((Constant (CStr "len_type")), (Constant (CInt 0))); ((Constant (CStr "max_len")), (Constant (CInt 12))); ((Constant (CStr "desc")), (Constant (CStr "Credits, Processing Fee Amount")))]));
  ((Constant (CStr "83")), (Dict [((Constant (CStr "data_enc")), (Constant (CStr "ascii"))); ((Constant (CStr "len_enc")), (Constant (CStr "ascii"))); ((Constant (CStr "len_type")), (Constant (CInt 0))); ((Constant (CStr "max_len")), (Constant (CInt 12))); ((Constant (CStr "desc")), (Constant (CStr "Credits, Transaction Fee Amount")))]));
  ((Constant (CStr "84")), (Dict [((Constant (CStr "data_enc")), (Constant (CStr "ascii"))); ((Constant (CStr "len_enc")), (Constant (CStr "ascii"))); ((Constant (CStr "len_type")), (Constant (CInt 0))); ((Constant (CStr "max_len")), (Constant (CInt 12))); ((Constant (CStr "desc")), (Constant (CStr "Debits, Processing Fee Amount")))]));
  ((Constant (CStr "85")), (Dict [((Constant (CStr "data_enc")), (Constant (CStr "ascii"))); ((Constant (CStr "len_enc")), (Constant (CStr "ascii"))); ((Constant (CStr "len_type")), (Constant (CInt 0))); ((Constant (CStr "max_len")), (Constant (CInt 12))); ((Constant (CStr "desc")), (Constant (CStr "Debits, Transaction Fee Amount")))]));
  ((Constant (CStr "86")), (Dict [((Constant (CStr "data_enc")), (Constant (CStr "ascii"))); ((Constant (CStr "len_enc")), (Constant (CStr "ascii"))); ((Constant (CStr "len_type")), (Constant (CInt 0))); ((Constant (CStr "max_len")), (Constant (CInt 16))); ((Constant (CStr "desc")), (Constant (CStr "Credits, Amount")))]));
  ((Constant (CStr "87")), (Dict [((Constant (CStr "data_enc")), (Constant (CStr "ascii"))); ((Constant (CStr "len_enc")), (Constant (CStr "ascii"))); ((Constant (CStr "len_type")), (Constant (CInt 0))); ((Constant (CStr "max_len")), (Constant (CInt 16))); ((Constant (CStr "desc")), (Constant (CStr "Credits, Reversal Amount")))]));
  ((Constant (CStr "88")), (Dict [((Constant (CStr "data_enc")), (Constant (CStr "ascii"))); ((Constant (CStr "len_enc")), (Constant (CStr "ascii"))); ((Constant (CStr "len_type")), (Constant (CInt 0))); ((Constant (CStr "max_len")), (Constant (CInt 16))); ((Constant (CStr "desc")), (Constant (CStr "Debits, Amount")))]));
  ((Constant (CStr "89")), (Dict [((Constant (CStr "data_enc")), (Constant (CStr "ascii"))); ((Constant (CStr "len_enc")), (Constant (CStr "ascii"))); ((Constant (CStr "len_type")), (Constant (CInt 0))); ((Constant (CStr "max_len")), (Constant (CInt 16))); ((Constant (CStr "desc")), (Constant (CStr "Debits, Reversal Amount")))]));
  ((Constant (CStr "90")), (Dict [((Constant (CStr "data_enc")), (Constant (CStr "ascii"))); ((Constant (CStr "len_enc")), (Constant (CStr "ascii"))); ((Constant (CStr "len_type")), (Constant (CInt 0))); ((Constant (CStr "max_len")), (Constant (CInt 42))); ((Constant (CStr "desc")), (Constant (CStr "Original Data Elements")))]));
  ((Constant (CStr "91")), (Dict [((Constant (CStr "data_enc")), (Constant (CStr "ascii"))); ((Constant (CStr "len_enc")), (Constant (CStr "ascii"))); ((Constant (CStr "len_type")), (Constant (CInt 0))); ((Constant (CStr "max_len")), (Constant (CInt 1))); ((Constant (CStr "desc")), (Constant (CStr "File Update Code")))]));
  ((Constant (CStr "92")), (Dict [((Constant (CStr "data_enc")), (Constant (CStr "ascii"))); ((Constant (CStr "len_enc")), (Constant (CStr "ascii"))); ((Constant (CStr "len_type")), (Constant (CInt 0))); ((Constant (CStr "max_len")), (Constant (CInt 2))); ((Constant (CStr "desc")), (Constant (CStr "File Security Code")))]));
  ((Constant (CStr "93")), (Dict [((Constant (CStr "data_enc")), (Constant (CStr "ascii"))); ((Constant (CStr "len_enc")), (Constant (CStr "ascii"))); ((Constant (CStr "len_type")), (Constant (CInt 0))); ((Constant (CStr "max_len")), (Constant (CInt 5))); ((Constant (CStr "desc")), (Constant (CStr "Response Indicator")))]));
  ((Constant (CStr "94")), (Dict [((Constant (CStr "data_enc")), (Constant (CStr "ascii"))); ((Constant (CStr "len_enc")), (Constant (CStr "ascii"))); ((Constant (CStr "len_type")), (Constant (CInt 0))); ((Constant (CStr "max_len")), (Constant (CInt 7))); ((Constant (CStr "desc")), (Constant (CStr "Service Indicator")))]));
  ((Constant (CStr "95")), (Dict [((Constant (CStr "data_enc")), (Constant (CStr "ascii"))); ((Constant (CStr "len_enc")), (Constant (CStr "ascii"))); ((Constant (CStr "len_type")), (Constant (CInt 0))); ((Constant (CStr "max_len")), (Constant (CInt 42))); ((Constant (CStr "desc")), (Constant (CStr "Replacement Amounts")))]));
  ((Constant (CStr "96")), (Dict [((Constant (CStr "data_enc")), (Constant (CStr "b"))); ((Constant (CStr "len_enc")), (Constant (CStr "ascii"))); ((Constant (CStr "len_type")), (Constant (CInt 0))); ((Constant (CStr "max_len")), (Constant (CInt 8))); ((Constant (CStr "desc")), (Constant (CStr "Message Security Code")))]));
  ((Constant (CStr "97")), (Dict [((Constant (CStr "data_enc")), (Constant (CStr "ascii"))); ((Constant (CStr "len_enc")), (Constant (CStr "ascii"))); ((Constant (CStr "len_type")), (Constant (CInt 0))); ((Constant (CStr "max_len")), (Constant (CInt 17))); ((Constant (CStr "desc")), (Constant (CStr "Amount, Net Settlement")))]));
  ((Constant (CStr "98")), (Dict [((Constant (CStr "data_enc")), (Constant (CStr "ascii"))); ((Constant (CStr "len_enc")), (Constant (CStr "ascii"))); ((Constant (CStr "len_type")), (Constant (CInt 0))); ((Constant (CStr "max_len")), (Constant (CInt 25))); ((Constant (CStr "desc")), (Constant (CStr "Payee")))]));
  ((Constant (CStr "99")), (Dict [((Constant (CStr "data_enc")), (Constant (CStr "ascii"))); ((Constant (CStr "len_enc")), (Constant (CStr "ascii"))); ((Constant (CStr "len_type")), (Constant (CInt 2))); ((Constant (CStr "max_len")), (Constant (CInt 11))); ((Constant (CStr "desc")), (Constant (CStr "Settlement Institution ID Code")))]));
  ((Constant (CStr "100")), (Dict [((Constant (CStr "data_enc")), (Constant (CStr "ascii"))); ((Constant (CStr "len_enc")), (Constant (CStr "ascii"))); ((Constant (CStr "len_type")), (Constant (CInt 2))); ((Constant (CStr "max_len")), (Constant (CInt 11))); ((Constant (CStr "desc")), (Constant (CStr "Receiving Institution ID Code")))]));
  ((Constant (CStr "101")), (Dict [((Constant (CStr "data_enc")), (Constant (CStr "ascii"))); ((Constant (CStr "len_enc")), (Constant (CStr "ascii"))); ((Constant (CStr "len_type")), (Constant (CInt 2))); ((Constant (CStr "max_len")), (Constant (CInt 17))); ((Constant (CStr "desc")), (Constant (CStr "File Name")))]));
  ((Constant (CStr "102")), (Dict [((Constant (CStr "data_enc")), (Constant (CStr "ascii"))); ((Constant (CStr "len_enc")), (Constant (CStr "ascii"))); ((Constant (CStr "len_type")), (Constant (CInt 2))); ((Constant (CStr "max_len")), (Constant (CInt 28))); ((Constant (CStr "desc")), (Constant (CStr "Account ID 1")))]));
  ((Constant (CStr "103")), (Dict [((Constant (CStr "data_enc")), (Constant (CStr "ascii"))); ((Constant (CStr "len_enc")), (Constant (CStr "ascii"))); ((Constant (CStr "len_type")), (Constant (CInt 2))); ((Constant (CStr "max_len")), (Constant (CInt 28))); ((Constant (CStr "desc")), (Constant (CStr "Account ID 2")))]));
  ((Constant (CStr "104")), (Dict [((Constant (CStr "data_enc")), (Constant (CStr "ascii"))); ((Constant (CStr "len_enc")), (Constant (CStr "ascii"))); ((Constant (CStr "len_type")), (Constant (CInt 3))); ((Constant (CStr "max_len")), (Constant (CInt 100))); ((Constant (CStr "desc")), (Constant (CStr "Transaction Description")))]));
  ((Constant (CStr "105")), (Dict [((Constant (CStr "data_enc")), (Constant (CStr "ascii"))); ((Constant (CStr "len_enc")), (Constant (CStr "ascii"))); ((Constant (CStr "len_type")), (Constant (CInt 3))); ((Constant (CStr "max_len")), (Constant (CInt 999))); ((Constant (CStr "desc")), (Constant (CStr "Reserved for ISO Use")))]));
  ((Constant (CStr "106")), (Dict [((Constant (CStr "data_enc")), (Constant (CStr "ascii"))); ((Constant (CStr "len_enc")), (Constant (CStr "ascii"))); ((Constant (CStr "len_type")), (Constant (CInt 3))); ((Constant (CStr "max_len")), (Constant (CInt 999))); ((Constant (CStr "desc")), (Constant (CStr "Reserved for ISO Use")))]));
  ((Constant (CStr "107")), (Dict [((Constant (CStr "data_enc")), (Constant (CStr "ascii"))); ((Constant (CStr "len_enc")), (Constant (CStr "ascii"))); ((Constant (CStr "len_type")), (Constant (CInt 3))); ((Constant (CStr "max_len")), (Constant (CInt 999))); ((Constant (CStr "desc")), (Constant (CStr "Reserved for ISO Use")))]));
  ((Constant (CStr "108")), (Dict [((Constant (CStr "data_enc")), (Constant (CStr "ascii"))); ((Constant (CStr "len_enc")), (Constant (CStr "ascii"))); ((Constant (CStr "len_type")), (Constant (CInt 3))); ((Constant (CStr "max_len")), (Constant (CInt 999))); ((Constant (CStr "desc")), (Constant (CStr "Reserved for ISO Use")))]));
  ((Constant (CStr "109")), (Dict [((Constant (CStr "data_enc")), (Constant (CStr "ascii"))); ((Constant (CStr "len_enc")), (Constant (CStr "ascii"))); ((Constant (CStr "len_type")), (Constant (CInt 3))); ((Constant (CStr "max_len")), (Constant (CInt 999))); ((Constant (CStr "desc")), (Constant (CStr "Reserved for ISO Use")))]));
  ((Constant (CStr "110")), (Dict [((Constant (CStr "data_enc")), (Constant (CStr "ascii"))); ((Constant (CStr "len_enc")), (Constant (CStr "ascii"))); ((Constant (CStr "len_type")), (Constant (CInt 3))); ((Constant (CStr "max_len")), (Constant (CInt 999))); ((Constant (CStr "desc")), (Constant (CStr "Reserved for ISO Use")))]));
  ((Constant (CStr "111")), (Dict [((Constant (CStr "data_enc")), (Constant (CStr "ascii"))); ((Constant (CStr "len_enc")), (Constant (CStr "ascii"))); ((Constant (CStr "len_type")), (Constant (CInt 3))); ((Constant (CStr "max_len")), (Constant (CInt 999))); ((Constant (CStr "desc")), (Constant (CStr "Reserved for ISO Use")))]));
  ((Constant (CStr "112")), (Dict [((Constant (CStr "data_enc")), (Constant (CStr "ascii"))); ((Constant (CStr "len_enc")), (Constant (CStr "ascii"))); ((Constant (CStr "len_type")), (Constant (CInt 3))); ((Constant (CStr "max_len")), (Constant (CInt 999))); ((Constant (CStr "desc")), (Constant (CStr "Reserved for National Use")))]));
  ((Constant (CStr "113")), (Dict [((Constant (CStr "data_enc")), (Constant (CStr "ascii"))); ((Constant (CStr "len_enc")), (Constant (CStr "ascii"))); ((Constant (CStr "len_type")), (Constant (CInt 3))); ((Constant (CStr "max_len")), (Constant (CInt 999))); ((Constant (CStr "desc")), (Constant (CStr "Reserved for National Use")))]));
  ((Constant (CStr "114")), (Dict [((Constant (CStr "data_enc")), (Constant (CStr "ascii"))); ((Constant (CStr "len_enc")), (Constant (CStr "ascii"))); ((Constant (CStr "len_type")), (Constant (CInt 3))); ((Constant (CStr "max_len")), (Constant (CInt 999))); ((Constant (CStr "desc")), (Constant (CStr "Reserved for National Use")))]));
  ((Constant (CStr "115")), (Dict [((Constant (CStr "data_enc")), (Constant (CStr "ascii"))); ((Constant (CStr "len_enc")), (Constant (CStr "ascii"))); ((Constant (CStr "len_type")), (Constant (CInt 3))); ((Constant (CStr "max_len")), (Constant (CInt 999))); ((Constant (CStr "desc")), (Constant (CStr "Reserved for National Use")))]));
  ((Constant (CStr "116")), (Dict [((Constant (CStr "data_enc")), (Constant (CStr "ascii"))); ((Constant (CStr "len_enc")), (Constant (CStr "ascii"))); ((Constant (CStr "len_type")), (Constant (CInt 3))); ((Constant (CStr "max_len")), (Constant (CInt 999))); ((Constant (CStr "desc")), (Constant (CStr "Reserved for National Use")))]));
  ((Constant (CStr "117")), (Dict [((Constant (CStr "data_enc")), (Constant (CStr "ascii"))); ((Constant (CStr "len_enc")), (Constant (CStr "ascii"))); ((Constant (CStr "len_type")), (Constant (CInt 3))); ((Constant (CStr "max_len")), (Constant (CInt 999))); ((Constant (CStr "desc")), (Constant (CStr "Reserved for National Use")))]));
  ((Constant (CStr "118")), (Dict [((Constant (CStr "data_enc")), (Constant (CStr "ascii"))); ((Constant (CStr "len_enc")), (Constant (CStr "ascii"))); ((Constant (CStr "len_type")), (Constant (CInt 3))); ((Constant (CStr "max_len")), (Constant (CInt 999))); ((Constant (CStr "desc")), (Constant (CStr "Reserved for National Use")))]));
  ((Constant (CStr "119")), (Dict [((Constant (CStr "data_enc")), (Constant (CStr "ascii"))); ((Constant (CStr "len_enc")), (Constant (CStr "ascii"))); ((Constant (CStr "len_type")), (Constant (CInt 3))); ((Constant (CStr "max_len")), (Constant (CInt 999))); ((Constant (CStr "desc")), (Constant (CStr "Reserved for National Use")))]));
  ((Constant (CStr "120")), (Dict [((Constant (CStr "data_enc")), (Constant (CStr "ascii"))); ((Constant (CStr "len_enc")), (Constant (CStr "ascii"))); ((Constant (CStr "len_type")), (Constant (CInt 3))); ((Constant (CStr "max_len")), (Constant (CInt 999))); ((Constant (CStr "desc")), (Constant (CStr "Reserved for Private Use")))]));
  ((Constant (CStr "121")), (Dict [((Constant (CStr "data_enc")), (Constant (CStr "ascii"))); ((Constant (CStr "len_enc")), (Constant (CStr "ascii"))); ((Constant (CStr "len_type")), (Constant (CInt 3))); ((Constant (CStr "max_len")), (Constant (CInt 999))); ((Constant (CStr "desc")), (Constant (CStr "Reserved for Private Use")))]));
  ((Constant (CStr "122")), (Dict [((Constant (CStr "data_enc")), (Constant (CStr "ascii"))); ((Constant (CStr "len_enc")), (Constant (CStr "ascii"))); ((Constant (CStr "len_type")), (Constant (CInt 3))); ((Constant (CStr "max_len")), (Constant (CInt 999))); ((Constant (CStr "desc")), (Constant (CStr "Reserved for Private Use")))]));
  ((Constant (CStr "123")), (Dict [((Constant (CStr "data_enc")), (Constant (CStr "ascii"))); ((Constant (CStr "len_enc")), (Constant (CStr "ascii"))); ((Constant (CStr "len_type")), (Constant (CInt 3))); ((Constant (CStr "max_len")), (Constant (CInt 999))); ((Constant (CStr "desc")), (Constant (CStr "Reserved for Private Use")))]));
  ((Constant (CStr "124")), (Dict [((Constant (CStr "data_enc")), (Constant (CStr "ascii"))); ((Constant (CStr "len_enc")), (Constant (CStr "ascii"))); ((Constant (CStr "len_type")), (Constant (CInt 3))); ((Constant (CStr "max_len")), (Constant (CInt 999))); ((Constant (CStr "desc")), (Constant (CStr "Reserved for Private Use")))]));
  ((Constant (CStr "125")), (Dict [((Constant (CStr "data_enc")), (Constant (CStr "ascii"))); ((Constant (CStr "len_enc")), (Constant (CStr "ascii"))); ((Constant (CStr "len_type")), (Constant (CInt 3))); ((Constant (CStr "max_len")), (Constant (CInt 999))); ((Constant (CStr "desc")), (Constant (CStr "Reserved for Private Use")))]));
  ((Constant (CStr "126")), (Dict [((Constant (CStr "data_enc")), (Constant (CStr "ascii"))); ((Constant (CStr "len_enc")), (Constant (CStr "ascii"))); ((Constant (CStr "len_type")), (Constant (CInt 3))); ((Constant (CStr "max_len")), (Constant (CInt 999))); ((Constant (CStr "desc")), (Constant (CStr "Reserved for Private Use")))]));
  ((Constant (CStr "127")), (Dict [((Constant (CStr "data_enc")), (Constant (CStr "ascii"))); ((Constant (CStr "len_enc")), (Constant (CStr "ascii"))); ((Constant (CStr "len_type")), (Constant (CInt 3))); ((Constant (CStr "max_len")), (Constant (CInt 999))); ((Constant (CStr "desc")), (Constant (CStr "Reserved for Private Use")))]));
  ((Constant (CStr "128")), (Dict [((Constant (CStr "data_enc")), (Constant (CStr "b"))); ((Constant (CStr "len_enc")), (Constant (CStr "ascii"))); ((Constant (CStr "len_type")), (Constant (CInt 0))); ((Constant (CStr "max_len")), (Constant (CInt 8))); ((Constant (CStr "desc")), (Constant (CStr "MAC")))]))].

(** specs.py:1396-2314 *)
Definition src_default_ascii : expr := Dict [
  ((Constant (CStr "h")), (Dict [((Constant (CStr "data_enc")), (Constant (CStr "ascii"))); ((Constant (CStr "len_enc")), (Constant (CStr "ascii"))); ((Constant (CStr "len_type")), (Constant (CInt 0))); ((Constant (CStr "max_len")), (Constant (CInt 0))); ((Constant (CStr "desc")), (Constant (CStr "Message Header")))]));
  ((Constant (CStr "t")), (Dict [((Constant (CStr "data_enc")), (Constant (CStr "ascii"))); ((Constant (CStr "len_enc")), (Constant (CStr "ascii"))); ((Constant (CStr "len_type")), (Constant (CInt 0))); ((Constant (CStr "max_len")), (Constant (CInt 4))); ((Constant (CStr "desc")), (Constant (CStr "Message Type")))]));
  ((Constant (CStr "p")), (Dict [((Constant (CStr "data_enc")), (Constant (CStr "ascii"))); ((Constant (CStr "len_enc")), (Constant (CStr "ascii"))); ((Constant (CStr "len_type")), (Constant (CInt 0))); ((Constant (CStr "max_len")), (Constant (CInt 16))); ((Constant (CStr "desc")), (Constant (CStr "Bitmap, Primary")))]));
  ((Constant (CStr "1")), (Dict [((Constant (CStr "data_enc")), (Constant (CStr "ascii"))); ((Constant (CStr "len_enc")), (Constant (CStr "ascii"))); ((Constant (CStr "len_type")), (Constant (CInt 0))); ((Constant (CStr "max_len")), (Constant (CInt 16))); ((Constant (CStr "desc")), (Constant (CStr "Bitmap, Secondary")))]));
  ((Constant (CStr "2")), (Dict [((Constant (CStr "data_enc")), (Constant (CStr "ascii"))); ((Constant (CStr "len_enc")), (Constant (CStr "ascii"))); ((Constant (CStr "len_type")), (Constant (CInt 2))); ((Constant (CStr "max_len")), (Constant (CInt 19))); ((Constant (CStr "desc")), (Constant (CStr "Primary Account Number (PAN)")))]));
  ((Constant (CStr "3")), (Dict [((Constant (CStr "data_enc")), (Constant (CStr "ascii"))); ((Constant (CStr "len_enc")), (Constant (CStr "ascii"))); ((Constant (CStr "len_type")), (Constant (CInt 0))); ((Constant (CStr "max_len")), (Constant (CInt 6))); ((Constant (CStr "desc")), (Constant (CStr "Processing Code")))]));
  ((Constant (CStr "4")), (Dict [((Constant (CStr "data_enc")), (Constant (CStr "ascii"))); ((Constant (CStr "len_enc")), (Constant (CStr "ascii"))); ((Constant (CStr "len_type")), (Constant (CInt 0))); ((Constant (CStr "max_len")), (Constant (CInt 12))); ((Constant (CStr "desc")), (Constant (CStr "Amount, Transaction")))]));
  ((Constant (CStr "5")), (Dict [((Constant (CStr "data_enc")), (Constant (CStr "ascii"))); ((Constant (CStr "len_enc")), (Constant (CStr "ascii"))); ((Constant (CStr "len_type")), (Constant (CInt 0))); ((Constant (CStr "max_len")), (Constant (CInt 12))); ((Constant (CStr "desc")), (Constant (CStr "Amount, Settlement")))]));
  ((Constant (CStr "6")), (Dict [((Constant (CStr "data_enc")), (Constant (CStr "ascii"))); ((Constant (CStr "len_enc")), (Constant (CStr "ascii"))); ((Constant (CStr "len_type")), (Constant (CInt 0))); ((Constant (CStr "max_len")), (Constant (CInt 12))); ((Constant (CStr "desc")), (Constant (CStr "Amount, Cardholder Billing")))]));
  ((Constant (CStr "7")), (Dict [((Constant (CStr "data_enc")), (Constant (CStr "ascii"))); ((Constant (CStr "len_enc")), (Constant (CStr "ascii"))); ((Constant (CStr "len_type")), (Constant (CInt 0))); ((Constant (CStr "max_len")), (Constant (CInt 10))); ((Constant (CStr "desc")), (Constant (CStr "Transmission Date and Time")))]));
  ((Constant (CStr "8")), (Dict [((Constant (CStr "data_enc")), (Constant (CStr "ascii"))); ((Constant (CStr "len_enc")), (Constant (CStr "ascii"))); ((Constant (CStr "len_type")), (Constant (CInt 0))); ((Constant (CStr "max_len")), (Constant (CInt 8))); ((Constant (CStr "desc")), (Constant (CStr "Amount, Cardholder Billing Fee")))]));
  ((Constant (CStr "9")), (Dict [((Constant (CStr "data_enc")), (Constant (CStr "ascii"))); ((Constant (CStr "len_enc")), (Constant (CStr "ascii"))); ((Constant (CStr "len_type")), (Constant (CInt 0))); ((Constant (CStr "max_len")), (Constant (CInt 8))); ((Constant (CStr "desc")), (Constant (CStr "Conversion Rate, Settlement")))]));
  ((Constant (CStr "10")), (Dict [((Constant (CStr "data_enc")), (Constant (CStr "ascii"))); ((Constant (CStr "len_enc")), (Constant (CStr "ascii"))); ((Constant (CStr "len_type")), (Constant (CInt 0))); ((Constant (CStr "max_len")), (Constant (CInt 8))); ((Constant (CStr "desc")), (Constant (CStr "Conversion Rate, Cardholder Billing")))]));
  ((Constant (CStr "11")), (Dict [((Constant (CStr "data_enc")), (Constant (CStr "ascii"))); ((Constant (CStr "len_enc")), (Constant (CStr "ascii"))); ((Constant (CStr "len_type")), (Constant (CInt 0))); ((Constant (CStr "max_len")), (Constant (CInt 6))); ((Constant (CStr "desc")), (Constant (CStr "System Trace Audit Number")))]));
  ((Constant (CStr "12")), (Dict [((Constant (CStr "data_enc")), (Constant (CStr "ascii"))); ((Constant (CStr "len_enc")), (Constant (CStr "ascii"))); ((Constant (CStr "len_type")), (Constant (CInt 0))); ((Constant (CStr "max_len")), (Constant (CInt 6))); ((Constant (CStr "desc")), (Constant (CStr "Time, Local Transaction")))]));
  ((Constant (CStr "13")), (Dict [((Constant (CStr "data_enc")), (Constant (CStr "ascii"))); ((Constant (CStr "len_enc")), (Constant (CStr "ascii"))); ((Constant (CStr "len_type")), (Constant (CInt 0))); ((Constant (CStr "max_len")), (Constant (CInt 4))); ((Constant (CStr "desc")), (Constant (CStr "Date, Local Transaction")))]));
  ((Constant (CStr "14")), (Dict [((Constant (CStr "data_enc")), (Constant (CStr "ascii"))); ((Constant (CStr "len_enc")), (Constant (CStr "ascii"))); ((Constant (CStr "len_type")), (Constant (CInt 0))); ((Constant (CStr "max_len")), (Constant (CInt 4))); ((Constant (CStr "desc")), (Constant (CStr "Date, Expiration")))]));
  ((Constant (CStr "15")), (Dict [((Constant (CStr "data_enc")), (Constant (CStr "ascii"))); ((Constant (CStr "len_enc")), (Constant (CStr "ascii"))); ((Constant (CStr "len_type")), (Constant (CInt 0))); ((Constant (CStr "max_len")), (Constant (CInt 4))); ((Constant (CStr "desc")), (Constant (CStr "Date, Settlement")))]));
  ((Constant (CStr "16")), (Dict [((Constant (CStr "data_enc")), (Constant (CStr "ascii"))); ((Constant (CStr "len_enc")), (Constant (CStr "ascii"))); ((Constant (CStr "len_type")), (Constant (CInt 0))); ((Constant (CStr "max_len")), (Constant (CInt 4))); ((Constant (CStr "desc")), (Constant (CStr "Date, Conversion")))]));
  ((Constant (CStr "17")), (Dict [((Constant (CStr "data_enc")), (Constant (CStr "ascii"))); ((Constant (CStr "len_enc")), (Constant (CStr "ascii"))); ((Constant (CStr "len_type")), (Constant (CInt 0))); ((Constant (CStr "max_len")), (Constant (CInt 4))); ((Constant (CStr "desc")), (Constant (CStr "Date, Capture")))]));
  ((Constant (CStr "18")), (Dict [((Constant (CStr "data_enc")), (Constant (CStr "ascii"))); ((Constant (CStr "len_enc")), (Constant (CStr "ascii"))); ((Constant (CStr "len_type")), (Constant (CInt 0))); ((Constant (CStr "max_len")), (Constant (CInt 4))); ((Constant (CStr "desc")), (Constant (CStr "Merchant Type")))]));
  ((Constant (CStr "19")), (Dict [((Constant (CStr "data_enc")), (Constant (CStr "ascii"))); ((Constant (CStr "len_enc")), (Constant (CStr "ascii"))); ((Constant (CStr "len_type")), (Constant (CInt 0))); ((Constant (CStr "max_len")), (Constant (CInt 3))); ((Constant (CStr "desc")), (Constant (CStr "Acquiring Institution Country Code")))]));
  ((Constant (CStr "20")), (Dict [((Constant (CStr "data_enc")), (Constant (CStr "ascii"))); ((Constant (CStr "len_enc")), (Constant (CStr "ascii"))); ((Constant (CStr "len_type")), (Constant (CInt 0))); ((Constant (CStr "max_len")), (Constant (CInt 3))); ((Constant (CStr "desc")), (Constant (CStr "PAN Country Code")))]));
  ((Constant (CStr "21")), (Dict [((Constant (CStr "data_enc")), (Constant (CStr "ascii"))); ((Constant (CStr "len_enc")), (Constant (CStr "ascii"))); ((Constant (CStr "len_type")), (Constant (CInt 0))); ((Constant (CStr "max_len")), (Constant (CInt 3))); ((Constant (CStr "desc")), (Constant (CStr "Forwarding Institution Country Code")))]));
  ((Constant (CStr "22")), (Dict [((Constant (CStr "data_enc")), (Constant (CStr "ascii"))); ((Constant (CStr "len_enc")), (Constant (CStr "ascii"))); ((Constant (CStr "len_type")), (Constant (CInt 0))); ((Constant (CStr "max_len")), (Constant (CInt 3))); ((Constant (CStr "desc")), (Constant (CStr "Point-of-Service Entry Mode")))]));
  ((Constant (CStr "23")), (Dict [((Constant (CStr "data_enc")), (Constant (CStr "ascii"))); ((Constant (CStr "len_enc")), (Constant (CStr "ascii"))); ((Constant (CStr "len_type")), (Constant (CInt 0))); ((Constant (CStr "max_len")), (Constant (CInt 3))); ((Constant (CStr "desc")), (Constant (CStr "PAN Sequence Number")))]));
  ((Constant (CStr "24")), (Dict [((Constant (CStr "data_enc")), (Constant (CStr "ascii"))); ((Constant (CStr "len_enc")), (Constant (CStr "ascii"))); ((Constant (CStr "len_type")), (Constant (CInt 0))); ((Constant (CStr "max_len")), (Constant (CInt 3))); ((Constant (CStr "desc")), (Constant (CStr "Network International ID (NII)")))]));
  ((Constant (CStr "25")), (Dict [((Constant (CStr "data_enc")), (Constant (CStr "ascii"))); ((Constant (CStr "len_enc")), (Constant (CStr "ascii"))); ((Constant (CStr "len_type")), (Constant (CInt 0))); ((Constant (CStr "max_len")), (Constant (CInt 2))); ((Constant (CStr "desc")), (Constant (CStr "Point-of-Service Condition Code")))]));
  ((Constant (CStr "26")), (Dict [((Constant (CStr "data_enc")), (Constant (CStr "ascii"))); ((Constant (CStr "len_enc")), (Constant (CStr "ascii"))); ((Constant (CStr "len_type")), (Constant (CInt 0))); ((Constant (CStr "max_len")), (Constant (CInt 2))); ((Constant (CStr "desc")), (Constant (CStr "Point-of-Service Capture Code")))]));
  ((Constant (CStr "27")), (Dict [((Constant (CStr "data_enc")), (Constant (CStr "ascii"))); ((Constant (CStr "len_enc")), (Constant (CStr "ascii"))); ((Constant (CStr "len_type")), (Constant (CInt 0))); ((Constant (CStr "max_len")), (Constant (CInt 1))); ((Constant (CStr "desc")), (Constant (CStr "Authorizing ID Response Length")))]));
  ((Constant (CStr "28")), (Dict [((Constant (CStr "data_enc")), (Constant (CStr "ascii"))); ((Constant (CStr "len_enc")), (Constant (CStr "ascii"))); ((Constant (CStr "len_type")), (Constant (CInt 0))); ((Constant (CStr "max_len")), (Constant (CInt 9))); ((Constant (CStr "desc")), (Constant (CStr "Amount, Transaction Fee")))]));
  ((Constant (CStr "29")), (Dict [((Constant (CStr "data_enc")), (Constant (CStr "ascii"))); ((Constant (CStr "len_enc")), (Constant (CStr "ascii"))); ((Constant (CStr "len_type")), (Constant (CInt 0))); ((Constant (CStr "max_len")), (Constant (CInt 9))); ((Constant (CStr "desc")), (Constant (CStr "Amount, Settlement Fee")))]));
  ((Constant (CStr "30")), (Dict [((Constant (CStr "data_enc")), (Constant (CStr "ascii"))); ((Constant (CStr "len_enc")), (Constant (CStr "ascii"))); ((Constant (CStr "len_type")), (Constant (CInt 0))); ((Constant (CStr "max_len")), (Constant (CInt 9))); ((Constant (CStr "desc")), (Constant (CStr "Amount, Transaction Processing Fee")))]));
  ((Constant (CStr "31")), (Dict [((Constant (CStr "data_enc")), (Constant (CStr "ascii"))); ((Constant (CStr "len_enc")), (Constant (CStr "ascii"))); ((Constant (CStr "len_type")), (Constant (CInt 0))); ((Constant (CStr "max_len")), (Constant (CInt 9))); ((Constant (CStr "desc")), (Constant (CStr "Amount, Settlement Processing Fee")))]));
  ((Constant (CStr "32")), (Dict [((Constant (CStr "data_enc")), (Constant (CStr "ascii"))); ((Constant (CStr "len_enc")), (Constant (CStr "ascii"))); ((Constant (CStr "len_type")), (Constant (CInt 2))); ((Constant (CStr "max_len")), (Constant (CInt 11))); ((Constant (CStr "desc")), (Constant (CStr "Acquiring Institution ID Code")))]));
  ((Constant (CStr "33")), (Dict [((Constant (CStr "data_enc")), (Constant (CStr "ascii"))); ((Constant (CStr "len_enc")), (Constant (CStr "ascii"))); ((Constant (CStr "len_type")), (Constant (CInt 2))); ((Constant (CStr "max_len")), (Constant (CInt 11))); ((Constant (CStr "desc")), (Constant (CStr "Forwarding Institution ID Code")))]));
  ((Constant (CStr "34")), (Dict [((Constant (CStr "data_enc")), (Constant (CStr "ascii"))); ((Constant (CStr "len_enc")), (Constant (CStr "ascii"))); ((Constant (CStr "len_type")), (Constant (CInt 2))); ((Constant (CStr "max_len")), (Constant (CInt 28))); ((Constant (CStr "desc")), (Constant (CStr "Primary Account Number, Extended")))]));
  ((Constant (CStr "35")), (Dict [((Constant (CStr "data_enc")), (Constant (CStr "ascii"))); ((Constant (CStr "len_enc")), (Constant (CStr "ascii"))); ((Constant (CStr "len_type")), (Constant (CInt 2))); ((Constant (CStr "max_len")), (Constant (CInt 37))); ((Constant (CStr "desc")), (Constant (CStr "Track 2 Data")))]));
  ((Constant (CStr "36")), (Dict [((Constant (CStr "data_enc")), (Constant (CStr "ascii"))); ((Constant (CStr "len_enc")), (Constant (CStr "ascii"))); ((Constant (CStr "len_type")), (Constant (CInt 3))); ((Constant (CStr "max_len")), (Constant (CInt 104))); ((Constant (CStr "desc")), (Constant (CStr "Track 3 Data")))]));
  ((Constant (CStr "37")), (Dict [((Constant (CStr "data_enc")), (Constant (CStr "ascii"))); ((Constant (CStr "len_enc")), (Constant (CStr "ascii"))); ((Constant (CStr "len_type")), (Constant (CInt 0))); ((Constant (CStr "max_len")), (Constant (CInt 12))); ((Constant (CStr "desc")), (Constant (CStr "Retrieval Reference Number")))]));
  ((Constant (CStr "38")), (Dict [((Constant (CStr "data_enc")), (Constant (CStr "ascii"))); ((Constant (CStr "len_enc")), (Constant (CStr "ascii"))); ((Constant (CStr "len_type")), (Constant (CInt 0))); ((Constant (CStr "max_len")), (Constant (CInt 6))); ((Constant (CStr "desc")), (Constant (CStr "Authorization ID Response")))]));
  ((Constant (CStr "39")), (Dict [((Constant (CStr "data_enc")), (Constant (CStr "ascii"))); ((Constant (CStr "len_enc")), (Constant (CStr "ascii"))); ((Constant (CStr "len_type")), (Constant (CInt 0))); ((Constant (CStr "max_len")), (Constant (CInt 2))); ((Constant (CStr "desc")), (Constant (CStr "Response Code")))]));
  ((Constant (CStr "40")), (Dict [((Constant (CStr "data_enc")), (Constant (CStr "ascii"))); ((Constant (CStr "len_enc")), (Constant (CStr "ascii"))); ((Constant (CStr "len_type")), (Constant (CInt 0))); ((Constant (CStr "max_len")), (Constant (CInt 3))); ((Constant (CStr "desc")), (Constant (CStr "Service Restriction Code")))]));
  ((Constant (CStr "41")), (Dict [((Constant (CStr "data_enc")), (Constant (CStr "ascii"))); ((Constant (CStr "len_enc")), (Constant (CStr "ascii"))); ((Constant (CStr "len_type")), (Constant (CInt 0))); ((Constant (CStr "max_len")), (Constant (CInt 8))); ((Constant (CStr "desc")), (Constant (CStr "Card Acceptor Terminal ID")))]));
  ((Constant (CStr "42")), (Dict [((Constant (CStr "data_enc")), (Constant (CStr "ascii"))); ((Constant (CStr "len_enc")), (Constant (CStr "ascii"))); ((Constant (CStr "len_type")), (Constant (CInt 0))); ((Constant (CStr "max_len")), (Constant (CInt 15))); ((Constant (CStr "desc")), (Constant (CStr "Card Acceptor ID Code")))]));
  ((Constant (CStr "43")), (Dict [((Constant (CStr "data_enc")), (Constant (CStr "ascii"))); ((Constant (CStr "len_enc")), (Constant (CStr "ascii"))); ((Constant (CStr "len_type")), (Constant (CInt 0))); ((Constant (CStr "max_len")), (Constant (CInt 40))); ((Constant (CStr "desc")), (Constant (CStr "Card Acceptor Name/Location")))]));
  ((Constant (CStr "44")), (Dict [((Constant (CStr "data_enc")), (Constant (CStr "ascii"))); ((Constant (CStr "len_enc")), (Constant (CStr "ascii"))); ((Constant (CStr "len_type")), (Constant (CInt 2))); ((Constant (CStr "max_len")), (Constant (CInt 25))); ((Constant (CStr "desc")), (Constant (CStr "Additional Response Data")))]));
  ((Constant (CStr "45")), (Dict [((Constant (CStr "data_enc")), (Constant (CStr "ascii"))); ((Constant (CStr "len_enc")), (Constant (CStr "ascii"))); ((Constant (CStr "len_type")), (Constant (CInt 2))); ((Constant (CStr "max_len")), (Constant (CInt 76))); ((Constant (CStr "desc")), (Constant (CStr "Track 1 Data")))]));
  ((Constant (CStr "46")), (Dict [((Constant (CStr "data_enc")), (Constant (CStr "ascii"))); ((Constant (CStr "len_enc")), (Constant (CStr "ascii"))); ((Constant (CStr "len_type")), (Constant (CInt 3))); ((Constant (CStr "max_len")), (Constant (CInt 999))); ((Constant (CStr "desc")), (Constant (CStr "Additional Data - ISO")))]));
  ((Constant (CStr "47")), (Dict [((Constant (CStr "data_enc")), (Constant (CStr "ascii"))); ((Constant (CStr "len_enc")), (Constant (CStr "ascii"))); ((Constant (CStr "len_type")), (Constant (CInt 3))); ((Constant (CStr "max_len")), (Constant (CInt 999))); ((Constant (CStr "desc")), (Constant (CStr "Additional Data - National")))]));
  ((Constant (CStr "48")), (Dict [((Constant (CStr "data_enc")), (Constant (CStr "ascii"))); ((Constant (CStr "len_enc")), (Constant (CStr "ascii"))); ((Constant (CStr "len_type")), (Constant (CInt 3))); ((Constant (CStr "max_len")), (Constant (CInt 999))); ((Constant (CStr "desc")), (Constant (CStr "Additional Data - Private")))]));
  ((Constant (CStr "49")), (Dict [((Constant (CStr "data_enc")), (Constant (CStr "ascii"))); ((Constant (CStr "len_enc")), (Constant (CStr "ascii"))); ((Constant (CStr "len_type")), (Constant (CInt 0))); ((Constant (CStr "max_len")), (Constant (CInt 3))); ((Constant (CStr "desc")), (Constant (CStr "Currency Code, Transaction")))]));
  ((Constant (CStr "50")), (Dict [((Constant (CStr "data_enc")), (Constant (CStr "ascii"))); ((Constant (CStr "len_enc")), (Constant (CStr "ascii"))); ((Constant (CStr "len_type")), (Constant (CInt 0))); ((Constant (CStr "max_len")), (Constant (CInt 3))); ((Constant (CStr "desc")), (Constant (CStr "Currency Code, Settlement")))]));
  ((Constant (CStr "51")), (Dict [((Constant (CStr "data_enc")), (Constant (CStr "ascii"))); ((Constant (CStr "len_enc")), (Constant (CStr "ascii"))); ((Constant (CStr "len_type")), (Constant (CInt 0))); ((Constant (CStr "max_len")), (Constant (CInt 3))); ((Constant (CStr "desc")), (Constant (CStr "Currency Code, Cardholder Billing")))]));
  ((Constant (CStr "52")), (Dict [((Constant (CStr "data_enc")), (Constant (CStr "ascii"))); ((Constant (CStr "len_enc")), (Constant (CStr "ascii"))); ((Constant (CStr "len_type")), (Constant (CInt 0))); ((Constant (CStr "max_len")), (Constant (CInt 16))); ((Constant (CStr "desc")), (Constant (CStr "PIN")))]));
  ((Constant (CStr "53")), (Dict [((Constant (CStr "data_enc")), (Constant (CStr "ascii"))); ((Constant (CStr "len_enc")), (Constant (CStr "ascii"))); ((Constant (CStr "len_type")), (Constant (CInt 0))); ((Constant (CStr "max_len")), (Constant (CInt 16))); ((Constant (CStr "desc")), (Constant (CStr "Security-Related Control Information")))]));
  ((Constant (CStr "54")), (Dict [((Constant (CStr "data_enc")), (Constant (CStr "ascii"))); ((Constant (CStr "len_enc")), (Constant (CStr "ascii"))); ((Constant (CStr "len_type")), (Constant (CInt 3))); ((Constant (CStr "max_len")), (Constant (CInt 240))); ((Constant (CStr "desc")), (Constant (CStr "Additional Amounts")))]));
  ((Constant (CStr "55")), (Dict [((Constant (CStr "data_enc")), (Constant (CStr "ascii"))); ((Constant (CStr "len_enc")), (Constant (CStr "ascii"))); ((Constant (CStr "len_type")), (Constant (CInt 3))); ((Constant (CStr "max_len")), (Constant (CInt 510))); ((Constant (CStr "desc")), (Constant (CStr "ICC data")))]));
  ((Constant (CStr "56")), (Dict [((Constant (CStr "data_enc")), (Constant (CStr "ascii"))); ((Constant (CStr "len_enc")), (Constant (CStr "ascii"))); ((Constant (CStr "len_type")), (Constant (CInt 3))); ((Constant (CStr "max_len")), (Constant (CInt 999))); ((Constant (CStr "desc")), (Constant (CStr "Reserved ISO")))]));
  ((Constant (CStr "57")), (Dict [((Constant (CStr "data_enc")), (Constant (CStr "ascii"))); ((Constant (CStr "len_enc")), (Constant (CStr "ascii"))); ((Constant (CStr "len_type")), (Constant (CInt 3))); ((Constant (CStr "max_len")), (Constant (CInt 999))); ((Constant (CStr "desc")), (Constant (CStr "Reserved National")))]));
  ((Constant (CStr "58")), (Dict [((Constant (CStr "data_enc")), (Constant (CStr "ascii"))); ((Constant (CStr "len_enc")), (Constant (CStr "ascii"))); ((Constant (CStr "len_type")), (Constant (CInt 3))); ((Constant (CStr "max_len")), (Constant (CInt 999))); ((Constant (CStr "desc")), (Constant (CStr "Reserved National")))]));
  ((Constant (CStr "59")), (Dict [((Constant (CStr "data_enc")), (Constant (CStr "ascii"))); ((Constant (CStr "len_enc")), (Constant (CStr "ascii"))); ((Constant (CStr "len_type")), (Constant (CInt 3))); ((Constant (CStr "max_len")), (Constant (CInt 999))); ((Constant (CStr "desc")), (Constant (CStr "Reserved National")))]));
  ((Constant (CStr "60")), (Dict [((Constant (CStr "data_enc")), (Constant (CStr "ascii"))); ((Constant (CStr "len_enc")), (Constant (CStr "ascii"))); ((Constant (CStr "len_type")), (Constant (CInt 3))); ((Constant (CStr "max_len")), (Constant (CInt 999))); ((Constant (CStr "desc")), (Constant (CStr "Reserved National")))]));
  ((Constant (CStr "61")), (Dict [((Constant (CStr "data_enc")), (Constant (CStr "ascii"))); ((Constant (CStr "len_enc")), (Constant (CStr "ascii"))); ((Constant (CStr "len_type")), (Constant (CInt 3))); ((Constant (CStr "max_len")), (Constant (CInt 999))); ((Constant (CStr "desc")), (Constant (CStr "Reserved Private")))]));
  ((Constant (CStr "62")), (Dict [((Constant (CStr "data_enc")), (Constant (CStr "ascii"))); ((Constant (CStr "len_enc")), (Constant (CStr "ascii"))); ((Constant (CStr "len_type")), (Constant (CInt 3))); ((Constant (CStr "max_len")), (Constant (CInt 999))); ((Constant (CStr "desc")), (Constant (CStr "Reserved Private")))]));
  ((Constant (CStr "63")), (Dict [((Constant (CStr "data_enc")), (Constant (CStr "ascii"))); ((Constant (CStr "len_enc")), (Constant (CStr "ascii"))); ((Constant (CStr "len_type")), (Constant (CInt 3))); ((Constant (CStr "max_len")), (Constant (CInt 999))); ((Constant (CStr "desc")), (Constant (CStr "Reserved Private")))]));
  ((Constant (CStr "64")), (Dict [((Constant (CStr "data_enc")), (Constant (CStr "ascii"))); ((Constant (CStr "len_enc")), (Constant (CStr "ascii"))); ((Constant (CStr "len_type")), (Constant (CInt 0))); ((Constant (CStr "max_len")), (Constant (CInt 16))); ((Constant (CStr "desc")), (Constant (CStr "MAC")))]));
  ((Constant (CStr "65")), (Dict [((Constant (CStr "data_enc")), (Constant (CStr "ascii"))); ((Constant (CStr "len_enc")), (Constant (CStr "ascii"))); ((Constant (CStr "len_type")), (Constant (CInt 0))); ((Constant (CStr "max_len")), (Constant (CInt 16))); ((Constant (CStr "desc")), (Constant (CStr "Bitmap, Extended")))]));
  ((Constant (CStr "66")), (Dict [((Constant (CStr "data_enc")), (Constant (CStr "ascii"))); ((Constant (CStr "len_enc")), (Constant (CStr "ascii"))); ((Constant (CStr "len_type")), (Constant (CInt 0))); ((Constant (CStr "max_len")), (Constant (CInt 1))); ((Constant (CStr "desc")), (Constant (CStr "Settlement Code")))]));
  ((Constant (CStr "67")), (Dict [((Constant (CStr "data_enc")), (Constant (CStr "ascii"))); ((Constant (CStr "len_enc")), (Constant (CStr "ascii"))); ((Constant (CStr "len_type")), (Constant (CInt 0))); ((Constant (CStr "max_len")), (Constant (CInt 2))); ((Constant (CStr "desc")), (Constant (CStr "Extended Payment Code")))]));
  ((Constant (CStr "68")), (Dict [((Constant (CStr "data_enc")), (Constant (CStr "ascii"))); ((Constant (CStr "len_enc")), (Constant (CStr "ascii"))); ((Constant (CStr "len_type")), (Constant (CInt 0))); ((Constant (CStr "max_len")), (Constant (CInt 3))); ((Constant (CStr "desc")), (Constant (CStr "Receiving Institution Country Code")))]));
  ((Constant (CStr "69")), (Dict [((Constant (CStr "data_enc")), (Constant (CStr "ascii"))); ((Constant (CStr "len_enc")), (Constant (CStr "ascii"))); ((Constant (CStr "len_type")), (Constant (CInt 0))); ((Constant (CStr "max_len")), (Constant (CInt 3))); ((Constant (CStr "desc")), (Constant (CStr "Settlement Institution Country Code")))]));
  ((Constant (CStr "70")), (Dict [((Constant (CStr "data_enc")), (Constant (CStr "ascii"))); ((Constant (CStr "len_enc")), (Constant (CStr "ascii"))); ((Constant (CStr "len_type")), (Constant (CInt 0))); ((Constant (CStr "max_len")), (Constant (CInt 3))); ((Constant (CStr "desc")), (Constant (CStr "Network Management Information Code")))]));
  ((Constant (CStr "71")), (Dict [((Constant (CStr "data_enc")), (Constant (CStr "ascii"))); ((Constant (CStr "len_enc")), (Constant (CStr "ascii"))); ((Constant (CStr "len_type")), (Constant (CInt 0))); ((Constant (CStr "max_len")), (Constant (CInt 4))); ((Constant (CStr "desc")), (Constant (CStr "Message Number")))]));
  ((Constant (CStr "72")), (Dict [((Constant (CStr "data_enc")), (Constant (CStr "ascii"))); ((Constant (CStr "len_enc")), (Constant (CStr "ascii"))); ((Constant (CStr "len_type")), (Constant (CInt 0))); ((Constant (CStr "max_len")), (Constant (CInt 4))); ((Constant (CStr "desc")), (Constant (CStr "Message Number, Last")))]));
  ((Constant (CStr "73")), (Dict [((Constant (CStr "data_enc")), (Constant (CStr "ascii"))); ((Constant (CStr "len_enc")), (Constant (CStr "ascii"))); ((Constant (CStr "len_type")), (Constant (CInt 0))); ((Constant (CStr "max_len")), (Constant (CInt 6))); ((Constant (CStr "desc")), (Constant (CStr "Date, Action")))]));
  ((Constant (CStr "74")), (Dict [((Constant (CStr "data_enc")), (Constant (CStr "ascii"))); ((Constant (CStr "len_enc")), (Constant (CStr "ascii"))); ((Constant (CStr "len_type")), (Constant (CInt 0))); ((Constant (CStr "max_len")), (Constant (CInt 10))); ((Constant (CStr "desc")), (Constant (CStr "Credits, Number")))]));
  ((Constant (CStr "75")), (Dict [((Constant (CStr "data_enc")), (Constant (CStr "ascii"))); ((Constant (CStr "len_enc")), (Constant (CStr "ascii"))); ((Constant (CStr "len_type")), (Constant (CInt 0))); ((Constant (CStr "max_len")), (Constant (CInt 10))); ((Constant (CStr "desc")), (Constant (CStr "Credits, Reversal Number")))]));
  ((Constant (CStr "76")), (Dict [((Constant (CStr "data_enc")), (Constant (CStr "ascii"))); ((Constant (CStr "len_enc")), (Constant (CStr "ascii"))); ((Constant (CStr "len_type")), (Constant (CInt 0))); ((Constant (CStr "max_len")), (Constant (CInt 10))); ((Constant (CStr "desc")), (Constant (CStr "Debits, Number")))]));
  ((Constant (CStr "77")), (Dict [((Constant (CStr "data_enc")), (Constant (CStr "ascii"))); ((Constant (CStr "len_enc")), (Constant (CStr "ascii"))); ((Constant (CStr "len_type")), (Constant (CInt 0))); ((Constant (CStr "max_len")), (Constant (CInt 10))); ((Constant (CStr "desc")), (Constant (CStr "Debits, Reversal Number")))]));
  ((Constant (CStr "78")), (Dict [((Constant (CStr "data_enc")), (Constant (CStr "ascii"))); ((Constant (CStr "len_enc")), (Constant (CStr "ascii"))); ((Constant (CStr "len_type")), (Constant (CInt 0))); ((Constant (CStr "max_len")), (Constant (CInt 10))); ((Constant (CStr "desc")), (Constant (CStr "Transfer, Number")))]));
  ((Constant (CStr "79")), (Dict [((Constant (CStr "data_enc")), (Constant (CStr "ascii"))); ((Constant (CStr "len_enc")), (Constant (CStr "ascii"))); ((Constant (CStr "len_type")), (Constant (CInt 0))); ((Constant (CStr "max_len")), (Constant (CInt 10))); ((Constant (CStr "desc")), (Constant (CStr "Transfer, Reversal Number")))]));
  ((Constant (CStr "80")), (Dict [((Constant (CStr "data_enc")), (Constant (CStr "ascii"))); ((Constant (CStr "len_enc")), (Constant (CStr "ascii"))); ((Constant (CStr "len_type")), (Constant (CInt 0))); ((Constant (CStr "max_len")), (Constant (CInt 10))); ((Constant (CStr "desc")), (Constant (CStr "Inquiries, Number")))]));
  ((Constant (CStr "81")), (Dict [((Constant (CStr "data_enc")), (Constant (CStr "ascii"))); ((Constant (CStr "len_enc")), (Constant (CStr "ascii"))); ((Constant (CStr "len_type")), (Constant (CInt 0))); ((Constant (CStr "max_len")), (Constant (CInt 10))); ((Constant (CStr "desc")), (Constant (CStr "Authorizations, Number")))]));
  ((Constant (CStr "82")), (Dict [((Constant (CStr "data_enc")), (Constant (CStr "ascii"))); ((Constant (CStr "len_enc")), (Constant (CStr "ascii"))); ((Constant (CStr "len_type")), (Constant (CInt 0))); ((Constant (CStr "max_len")), (Constant (CInt 12))); ((Constant (CStr "desc")), (Constant (CStr "Credits, Processing Fee Amount")))]));
  ((Constant (CStr "83")), (Dict [((Constant (CStr "data_enc")), (Constant (CStr "ascii"))); ((Constant (CStr "len_enc")), (Constant (CStr "ascii"))); ((Constant (CStr "len_type")), (Constant (CInt 0))); ((Constant (CStr "max_len")), (Constant (CInt 12))); ((Constant (CStr "desc")), (Constant (CStr "Credits, Transaction Fee Amount")))]));
  ((Constant (CStr "84")), (Dict [((Constant (CStr "data_enc")), (Constant (CStr "ascii"))); ((Constant (CStr "len_enc")), (Constant (CStr "ascii"))); ((Constant (CStr "len_type")), (Constant (CInt 0))); ((Constant (CStr "max_len")), (Constant (CInt 12))); ((Constant (CStr "desc")), (Constant (CStr "Debits, Processing Fee Amount")))]));
  ((Constant (CStr "85")), (Dict [((Constant (CStr "data_enc")), (Constant (CStr "ascii"))); ((Constant (CStr "len_enc")), (Constant (CStr "ascii"))); ((Constant (CStr "len_type")), (Constant (CInt 0))); ((Constant (CStr "max_len")), (Constant (CInt 12))); ((Constant (CStr "desc")), (Constant (CStr "Debits, Transaction Fee Amount")))]));
  ((Constant (CStr "86")), (Dict [((Constant (CStr "data_enc")), (Constant (CStr "ascii"))); ((Constant (CStr "len_enc")), (Constant (CStr "ascii"))); ((Constant (CStr "len_type")), (Constant (CInt 0))); ((Constant (CStr "max_len")), (Constant (CInt 16))); ((Constant (CStr "desc")), (Constant (CStr "Credits, Amount")))]));
  ((Constant (CStr "87")), (Dict [((Constant (CStr "data_enc")), (Constant (CStr "ascii"))); ((Constant (CStr "len_enc")), (Constant (CStr "ascii"))); ((Constant (CStr "len_type")), (Constant (CInt 0))); ((Constant (CStr "max_len")), (Constant (CInt 16))); ((Constant (CStr "desc")), (Constant (CStr "Credits, Reversal Amount")))]));
  ((Constant (CStr "88")), (Dict [((Constant (CStr "data_enc")), (Constant (CStr "ascii"))); ((Constant (CStr "len_enc")), (Constant (CStr "ascii"))); ((Constant (CStr "len_type")), (Constant (CInt 0))); ((Constant (CStr "max_len")), (Constant (CInt 16))); ((Constant (CStr "desc")), (Constant (CStr "Debits, Amount")))]));
  ((Constant (CStr "89")), (Dict [((Constant (CStr "data_enc")), (Constant (CStr "ascii"))); ((Constant (CStr "len_enc")), (Constant (CStr "ascii"))); ((Constant (CStr "len_type")), (Constant (CInt 0))); ((Constant (CStr "max_len")), (Constant (CInt 16))); ((Constant (CStr "desc")), (Constant (CStr "Debits, Reversal Amount")))]));
  ((Constant (CStr "90")), (Dict [((Constant (CStr "data_enc")), (Constant (CStr "ascii"))); ((Constant (CStr "len_enc")), (Constant (CStr "ascii"))); ((Constant (CStr "len_type")), (Constant (CInt 0))); ((Constant (CStr "max_len")), (Constant (CInt 42))); ((Constant (CStr "desc")), (Constant (CStr "Original Data Elements")))]));
  ((Constant (CStr "91")), (Dict [((Constant (CStr "data_enc")), (Constant (CStr "ascii"))); ((Constant (CStr "len_enc")), (Constant (CStr "ascii"))); ((Constant (CStr "len_type")), (Constant (CInt 0))); ((Constant (CStr "max_len")), (Constant (CInt 1))); ((Constant (CStr "desc")), (Constant (CStr "File Update Code")))]));
  ((Constant (CStr "92")), (Dict [((Constant (CStr "data_enc")), (Constant (CStr "ascii"))); ((Constant (CStr "len_enc")), (Constant (CStr "ascii"))); ((Constant (CStr "len_type")), (Constant (CInt 0))); ((Constant (CStr "max_len")), (Constant (CInt 2))); ((Constant (CStr "desc")), (Constant (CStr "File Security Code")))]));
  ((Constant (CStr "93")), (Dict [((Constant (CStr "data_enc")), (Constant (CStr "ascii"))); ((Constant (CStr "len_enc")), (Constant (CStr "ascii"))); ((Constant (CStr "len_type")), (Constant (CInt 0))); ((Constant (CStr "max_len")), (Constant (CInt 5))); ((Constant (CStr "desc")), (Constant (CStr "Response Indicator")))]));
  ((Constant (CStr "94")), (Dict [((Constant (CStr "data_enc")), (Constant (CStr "ascii"))); ((Constant (CStr "len_enc")), (Constant (CStr "ascii"))); ((Constant (CStr "len_type")), (Constant (CInt 0))); ((Constant (CStr "max_len")), (Constant (CInt 7))); ((Constant (CStr "desc")), (Constant (CStr "Service Indicator")))]));
  ((Constant (CStr "95")), (Dict [((Constant (CStr "data_enc")), (Constant (CStr "ascii"))); ((Constant (CStr "len_enc")), (Constant (CStr "ascii"))); ((Constant (CStr "len_type")), (Constant (CInt 0))); ((Constant (CStr "max_len")), (Constant (CInt 42))); ((Constant (CStr "desc")), (Constant (CStr "Replacement Amounts")))]));
  ((Constant (CStr "96")), (Dict [((Constant (CStr "data_enc")), (Constant (CStr "ascii"))); ((Constant (CStr "len_enc")), (Constant (CStr "ascii"))); ((Constant (CStr "len_type")), (Constant (CInt 0))); ((Constant (CStr "max_len")), (Constant (CInt 16))); ((Constant (CStr "desc")), (Constant (CStr "Message Security Code")))]));
  ((Constant (CStr "97")), (Dict [((Constant (CStr "data_enc")), (Constant (CStr "ascii"))); ((Constant (CStr "len_enc")), (Constant (CStr "ascii"))); ((Constant (CStr "len_type")), (Constant (CInt 0))); ((Constant (CStr "max_len")), (Constant (CInt 17))); ((Constant (CStr "desc")), (Constant (CStr "Amount, Net Settlement")))]));
  ((Constant (CStr "98")), (Dict [((Constant (CStr "data_enc")), (Constant (CStr "ascii"))); ((Constant (CStr "len_enc")), (Constant (CStr "ascii"))); ((Constant (CStr "len_type")), (Constant (CInt 0))); ((Constant (CStr "max_len")), (Constant (CInt 25))); ((Constant (CStr "desc")), (Constant (CStr "Payee")))]));
  ((Constant (CStr "99")), (Dict [((Constant (CStr "data_enc")), (Constant (CStr "ascii"))); ((Constant (CStr "len_enc")), (Constant (CStr "ascii"))); ((Constant (CStr "len_type")), (Constant (CInt 2))); ((Constant (CStr "max_len")), (Constant (CInt 11))); ((Constant (CStr "desc")), (Constant (CStr "Settlement Institution ID Code")))]));
  ((Constant (CStr "100")), (Dict [((Constant (CStr "data_enc")), (Constant (CStr "ascii"))); ((Constant (CStr "len_enc")), (Constant (CStr "ascii"))); ((Constant (CStr "len_type")), (Constant (CInt 2))); ((Constant (CStr "max_len")), (Constant (CInt 11))); ((Constant (CStr "desc")), (Constant (CStr "Receiving Institution ID Code")))]));
  ((Constant (CStr "101")), (Dict [((Constant (CStr "data_enc")), (Constant (CStr "ascii"))); ((Constant (CStr "len_enc")), (Constant (CStr "ascii"))); ((Constant (CStr "len_type")), (Constant (CInt 2))); ((Constant (CStr "max_len")), (Constant (CInt 17))); ((Constant (CStr "desc")), (Constant (CStr "File Name")))]));
  ((Constant (CStr "102")), (Dict [((Constant (CStr "data_enc")), (Constant (CStr "ascii"))); ((Constant (CStr "len_enc")), (Constant (CStr "ascii"))); ((Constant (CStr "len_type")), (Constant (CInt 2))); ((Constant (CStr "max_len")), (Constant (CInt 28))); ((Constant (CStr "desc")), (Constant (CStr "Account ID 1")))]));
  ((Constant (CStr "103")), (Dict [((Constant (CStr "data_enc")), (Constant (CStr "ascii"))); ((Constant (CStr "len_enc")), (Constant (CStr "ascii"))); ((Constant (CStr "len_type")), (Constant (CInt 2))); ((Constant (CStr "max_len")), (Constant (CInt 28))); ((Constant (CStr "desc")), (Constant (CStr "Account ID 2")))]));
  ((Constant (CStr "104")), (Dict [((Constant (CStr "data_enc")), (Constant (CStr "ascii"))); ((Constant (CStr "len_enc")), (Constant (CStr "ascii"))); ((Constant (CStr "len_type")), (Constant (CInt 3))); ((Constant (CStr "max_len")), (Constant (CInt 100))); ((Constant (CStr "desc")), (Constant (CStr "Transaction Description")))]));
  ((Constant (CStr "105")), (Dict [((Constant (CStr "data_enc")), (Constant (CStr "ascii"))); ((Constant (CStr "len_enc")), (Constant (CStr "ascii"))); ((Constant (CStr "len_type")), (Constant (CInt 3))); ((Constant (CStr "max_len")), (Constant (CInt 999))); ((Constant (CStr "desc")), (Constant (CStr "Reserved for ISO Use")))]));
  ((Constant (CStr "106")), (Dict [((Constant (CStr "data_enc")), (Constant (CStr "ascii"))); ((Constant (CStr "len_enc")), (Constant (CStr "ascii"))); ((Constant (CStr "len_type")), (Constant (CInt 3))); ((Constant (CStr "max_len")), (Constant (CInt 999))); ((Constant (CStr "desc")), (Constant (CStr "Reserved for ISO Use")))]));
  ((Constant (CStr "107")), (Dict [((Constant (CStr "data_enc")), (Constant (CStr "ascii"))); ((Constant (CStr "len_enc")), (Constant (CStr "ascii"))); ((Constant (CStr "len_type")), (Constant (CInt 3))); ((Constant (CStr "max_len")), (Constant (CInt 999))); ((Constant (CStr "desc")), (Constant (CStr "Reserved for ISO Use")))]));
  ((Constant (CStr "108")), (Dict [((Constant (CStr "data_enc")), (Constant (CStr "ascii"))); ((Constant (CStr "len_enc")), (Constant (CStr "ascii"))); ((Constant (CStr "len_type")), (Constant (CInt 3))); ((Constant (CStr "max_len")), (Constant (CInt 999))); ((Constant (CStr "desc")), (Constant (CStr "Reserved for ISO Use")))]));
  ((Constant (CStr "109")), (Dict [((Constant (CStr "data_enc")), (Constant (CStr "ascii"))); ((Constant (CStr "len_enc")), (Constant (CStr "ascii"))); ((Constant (CStr "len_type")), (Constant (CInt 3))); ((Constant (CStr "max_len")), (Constant (CInt 999))); ((Constant (CStr "desc")), (Constant (CStr "Reserved for ISO Use")))]));
  ((Constant (CStr "110")), (Dict [((Constant (CStr "data_enc")), (Constant (CStr "ascii"))); ((Constant (CStr "len_enc")), (Constant (CStr "ascii"))); ((Constant (CStr "len_type")), (Constant (CInt 3))); ((Constant (CStr "max_len")), (Constant (CInt 999))); ((Constant (CStr "desc")), (Constant (CStr "Reserved for ISO Use")))]));
  ((Constant (CStr "111")), (Dict [((Constant (CStr "data_enc")), (Constant (CStr "ascii"))); ((Constant (CStr "len_enc")), (Constant (CStr "ascii"))); ((Constant (CStr "len_type")), (Constant (CInt 3))); ((Constant (CStr "max_len")), (Constant (CInt 999))); ((Constant (CStr "desc")), (Constant (CStr "Reserved for ISO Use")))]));
  ((Constant (CStr "112")), (Dict [((Constant (CStr "data_enc")), (Constant (CStr "ascii"))); ((Constant (CStr "len_enc")), (Constant (CStr "ascii"))); ((Constant (CStr "len_type")), (Constant (CInt 3))); ((Constant (CStr "max_len")), (Constant (CInt 999))); ((Constant (CStr "desc")), (Constant (CStr "Reserved for National Use")))]));
  ((Constant (CStr "113")), (Dict [((Constant (CStr "data_enc")), (Constant (CStr "ascii"))); ((Constant (CStr "len_enc")), (Constant (CStr "ascii"))); ((Constant (CStr "len_type")), (Constant (CInt 3))); ((Constant (CStr "max_len")), (Constant (CInt 999))); ((Constant (CStr "desc")), (Constant (CStr "Reserved for National Use")))]));
  ((Constant (CStr "114")), (Dict [((Constant (CStr "data_enc")), (Constant (CStr "ascii"))); ((Constant (CStr "len_enc")), (Constant (CStr "ascii"))); ((Constant (CStr "len_type")), (Constant (CInt 3))); ((Constant (CStr "max_len")), (Constant (CInt 999))); ((Constant (CStr "desc")), (Constant (CStr "Reserved for National Use")))]));
  ((Constant (CStr "115")), (Dict [((Constant (CStr "data_enc")), (Constant (CStr "ascii"))); ((Constant (CStr "len_enc")), (Constant (CStr "ascii"))); ((Constant (CStr "len_type")), (Constant (CInt 3))); ((Constant (CStr "max_len")), (Constant (CInt 999))); ((Constant (CStr "desc")), (Constant (CStr "Reserved for National Use")))]));
  ((Constant (CStr "116")), (Dict [((Constant (CStr "data_enc")), (Constant (CStr "ascii"))); ((Constant (CStr "len_enc")), (Constant (CStr "ascii"))); ((Constant (CStr "len_type")), (Constant (CInt 3))); ((Constant (CStr "max_len")), (Constant (CInt 999))); ((Constant (CStr "desc")), (Constant (CStr "Reserved for National Use")))]));
  ((Constant (CStr "117")), (Dict [((Constant (CStr "data_enc")), (Constant (CStr "ascii"))); ((Constant (CStr "len_enc")), (Constant (CStr "ascii"))); ((Constant (CStr "len_type")), (Constant (CInt 3))); ((Constant (CStr "max_len")), (Constant (CInt 999))); ((Constant (CStr "desc")), (Constant (CStr "Reserved for National Use")))]));
  ((Constant (CStr "118")), (Dict [((Constant (CStr "data_enc")), (Constant (CStr "ascii"))); ((Constant (CStr "len_enc")), (Constant (CStr "ascii"))); ((Constant (CStr "len_type")), (Constant (CInt 3))); ((Constant (CStr "max_len")), (Constant (CInt 999))); ((Constant (CStr "desc")), (Constant (CStr "Reserved for National Use")))]));
  ((Constant (CStr "119")), (Dict [((Constant (CStr "data_enc")), (Constant (CStr "ascii"))); ((Constant (CStr "len_enc")), (Constant (CStr "ascii"))); ((Constant (CStr "len_type")), (Constant (CInt 3))); ((Constant (CStr "max_len")), (Constant (CInt 999))); ((Constant (CStr "desc")), (Constant (CStr "Reserved for National Use")))]));
  ((Constant (CStr "120")), (Dict [((Constant (CStr "data_enc")), (Constant (CStr "ascii"))); ((Constant (CStr "len_enc")), (Constant (CStr "ascii"))); ((Constant (CStr "len_type")), (Constant (CInt 3))); ((Constant (CStr "max_len")), (Constant (CInt 999))); ((Constant (CStr "desc")), (Constant (CStr "Reserved for Private Use")))]));
  ((Constant (CStr "121")), (Dict [((Constant (CStr "data_enc")), (Constant (CStr "ascii"))); ((Constant (CStr "len_enc")), (Constant (CStr "ascii"))); ((Constant (CStr "len_type")), (Constant (CInt 3))); ((Constant (CStr "max_len")), (Constant (CInt 999))); ((Constant (CStr "desc")), (Constant (CStr "Reserved for Private Use")))]));
  ((Constant (CStr "122")), (Dict [((Constant (CStr "data_enc")), (Constant (CStr "ascii"))); ((Constant (CStr "len_enc")), (Constant (CStr "ascii"))); ((Constant (CStr "len_type")), (Constant (CInt 3))); ((Constant (CStr "max_len")), (Constant (CInt 999))); ((Constant (CStr "desc")), (Constant (CStr "Reserved for Private Use")))]));
  ((Constant (CStr "123")), (Dict [((Constant (CStr "data_enc")), (Constant (CStr "ascii"))); ((Constant (CStr "len_enc")), (Constant (CStr "ascii"))); ((Constant (CStr "len_type")), (Constant (CInt 3))); ((Constant (CStr "max_len")), (Constant (CInt 999))); ((Constant (CStr "desc")), (Constant (CStr "Reserved for Private Use")))]));
  ((Constant (CStr "124")), (Dict [((Constant (CStr "data_enc")), (Constant (CStr "ascii"))); ((Constant (CStr "len_enc")), (Constant (CStr "ascii"))); ((Constant (CStr "len_type")), (Constant (CInt 3))); ((Constant (CStr "max_len")), (Constant (CInt 999))); ((Constant (CStr "desc")), (Constant (CStr "Reserved for Private Use")))]));
  ((Constant (CStr "125")), (Dict [((Constant (CStr "data_enc")), (Constant (CStr "ascii"))); ((Constant (CStr "len_enc")), (Constant (CStr "ascii"))); ((Constant (CStr "len_type")), (Constant (CInt 3))); ((Constant (CStr "max_len")), (Constant (CInt 999))); ((Constant (CStr "desc")), (Constant (CStr "Reserved for Private Use")))]));
  ((Constant (CStr "126")), (Dict [((Constant (CStr "data_enc")), (Constant (CStr "ascii"))); ((Constant (CStr "len_enc")), (Constant (CStr "ascii"))); ((Constant (CStr "len_type")), (Constant (CInt 3))); ((Constant (CStr "max_len")), (Constant (CInt 999))); ((Constant (CStr "desc")), (Constant (CStr "Reserved for Private Use")))]));
  ((Constant (CStr "127")), (Dict [((Constant (CStr "data_enc")), (Constant (CStr "ascii"))); ((Constant (CStr "len_enc")), (Constant (CStr "ascii"))); ((Constant (CStr "len_type")), (Constant (CInt 3))); ((Constant (CStr "max_len")), (Constant (CInt 999))); ((Constant (CStr "desc")), (Constant (CStr "Reserved for Private Use")))]));
  ((Constant (CStr "128")), (Dict [((Constant (CStr "data_enc")), (Constant (CStr "ascii"))); ((Constant (CStr "len_enc")), (Constant (CStr "ascii"))); ((Constant (CStr "len_type")), (Constant (CInt 0))); ((Constant (CStr "max_len")), (Constant (CInt 16))); ((Constant (CStr "desc")), (Constant (CStr "MAC")))]))].

(** The statements of the module, in this order. *)
Definition specs_py : list stmt := [Assign (Name "default") src_default; Assign (Name "default_ascii") src_default_ascii].
