(** * Specs: the two specifications shipped in /repo/iso8583/specs.py.
    Generated by parsing the dict literals; no entry is omitted. *)
From Verif Require Import PyBase Types.
Local Open Scope string_scope.

(** A field with the five properties every shipped entry has. *)
Definition fld (data_enc len_enc : string) (len_type : Z) (max_len : Z) (desc : string) : fspec :=
  {| fs_data_enc := Some (u data_enc); fs_len_enc := Some (u len_enc);
     fs_len_type := Some len_type; fs_max_len := Some max_len;
     fs_len_count := None; fs_left_pad := None; fs_right_pad := None;
     fs_desc := Some (u desc) |}.

(** default, specs.py:474-1392. *)
Definition default : spec := [
  (u "h", fld "ascii" "ascii" 0 0 "Message Header");
  (u "t", fld "ascii" "ascii" 0 4 "Message Type");
  (u "p", fld "b" "ascii" 0 8 "Bitmap, Primary");
  (u "1", fld "b" "ascii" 0 8 "Bitmap, Secondary");
  (u "2", fld "ascii" "ascii" 2 19 "Primary Account Number (PAN)");
  (u "3", fld "ascii" "ascii" 0 6 "Processing Code");
  (u "4", fld "ascii" "ascii" 0 12 "Amount, Transaction");
  (u "5", fld "ascii" "ascii" 0 12 "Amount, Settlement");
  (u "6", fld "ascii" "ascii" 0 12 "Amount, Cardholder Billing");
  (u "7", fld "ascii" "ascii" 0 10 "Transmission Date and Time");
  (u "8", fld "ascii" "ascii" 0 8 "Amount, Cardholder Billing Fee");
  (u "9", fld "ascii" "ascii" 0 8 "Conversion Rate, Settlement");
  (u "10", fld "ascii" "ascii" 0 8 "Conversion Rate, Cardholder Billing");
  (u "11", fld "ascii" "ascii" 0 6 "System Trace Audit Number");
  (u "12", fld "ascii" "ascii" 0 6 "Time, Local Transaction");
  (u "13", fld "ascii" "ascii" 0 4 "Date, Local Transaction");
  (u "14", fld "ascii" "ascii" 0 4 "Date, Expiration");
  (u "15", fld "ascii" "ascii" 0 4 "Date, Settlement");
  (u "16", fld "ascii" "ascii" 0 4 "Date, Conversion");
  (u "17", fld "ascii" "ascii" 0 4 "Date, Capture");
  (u "18", fld "ascii" "ascii" 0 4 "Merchant Type");
  (u "19", fld "ascii" "ascii" 0 3 "Acquiring Institution Country Code");
  (u "20", fld "ascii" "ascii" 0 3 "PAN Country Code");
  (u "21", fld "ascii" "ascii" 0 3 "Forwarding Institution Country Code");
  (u "22", fld "ascii" "ascii" 0 3 "Point-of-Service Entry Mode");
  (u "23", fld "ascii" "ascii" 0 3 "PAN Sequence Number");
  (u "24", fld "ascii" "ascii" 0 3 "Network International ID (NII)");
  (u "25", fld "ascii" "ascii" 0 2 "Point-of-Service Condition Code");
  (u "26", fld "ascii" "ascii" 0 2 "Point-of-Service Capture Code");
  (u "27", fld "ascii" "ascii" 0 1 "Authorizing ID Response Length");
  (u "28", fld "ascii" "ascii" 0 9 "Amount, Transaction Fee");
  (u "29", fld "ascii" "ascii" 0 9 "Amount, Settlement Fee");
  (u "30", fld "ascii" "ascii" 0 9 "Amount, Transaction Processing Fee");
  (u "31", fld "ascii" "ascii" 0 9 "Amount, Settlement Processing Fee");
  (u "32", fld "ascii" "ascii" 2 11 "Acquiring Institution ID Code");
  (u "33", fld "ascii" "ascii" 2 11 "Forwarding Institution ID Code");
  (u "34", fld "ascii" "ascii" 2 28 "Primary Account Number, Extended");
  (u "35", fld "ascii" "ascii" 2 37 "Track 2 Data");
  (u "36", fld "ascii" "ascii" 3 104 "Track 3 Data");
  (u "37", fld "ascii" "ascii" 0 12 "Retrieval Reference Number");
  (u "38", fld "ascii" "ascii" 0 6 "Authorization ID Response");
  (u "39", fld "ascii" "ascii" 0 2 "Response Code");
  (u "40", fld "ascii" "ascii" 0 3 "Service Restriction Code");
  (u "41", fld "ascii" "ascii" 0 8 "Card Acceptor Terminal ID");
  (u "42", fld "ascii" "ascii" 0 15 "Card Acceptor ID Code");
  (u "43", fld "ascii" "ascii" 0 40 "Card Acceptor Name/Location");
  (u "44", fld "ascii" "ascii" 2 25 "Additional Response Data");
  (u "45", fld "ascii" "ascii" 2 76 "Track 1 Data");
  (u "46", fld "ascii" "ascii" 3 999 "Additional Data - ISO");
  (u "47", fld "ascii" "ascii" 3 999 "Additional Data - National");
  (u "48", fld "ascii" "ascii" 3 999 "Additional Data - Private");
  (u "49", fld "ascii" "ascii" 0 3 "Currency Code, Transaction");
  (u "50", fld "ascii" "ascii" 0 3 "Currency Code, Settlement");
  (u "51", fld "ascii" "ascii" 0 3 "Currency Code, Cardholder Billing");
  (u "52", fld "b" "ascii" 0 8 "PIN");
  (u "53", fld "ascii" "ascii" 0 16 "Security-Related Control Information");
  (u "54", fld "ascii" "ascii" 3 240 "Additional Amounts");
  (u "55", fld "b" "ascii" 3 255 "ICC data");
  (u "56", fld "ascii" "ascii" 3 999 "Reserved ISO");
  (u "57", fld "ascii" "ascii" 3 999 "Reserved National");
  (u "58", fld "ascii" "ascii" 3 999 "Reserved National");
  (u "59", fld "ascii" "ascii" 3 999 "Reserved National");
  (u "60", fld "ascii" "ascii" 3 999 "Reserved National");
  (u "61", fld "ascii" "ascii" 3 999 "Reserved Private");
  (u "62", fld "ascii" "ascii" 3 999 "Reserved Private");
  (u "63", fld "ascii" "ascii" 3 999 "Reserved Private");
  (u "64", fld "b" "ascii" 0 8 "MAC");
  (u "65", fld "b" "ascii" 0 8 "Bitmap, Extended");
  (u "66", fld "ascii" "ascii" 0 1 "Settlement Code");
  (u "67", fld "ascii" "ascii" 0 2 "Extended Payment Code");
  (u "68", fld "ascii" "ascii" 0 3 "Receiving Institution Country Code");
  (u "69", fld "ascii" "ascii" 0 3 "Settlement Institution Country Code");
  (u "70", fld "ascii" "ascii" 0 3 "Network Management Information Code");
  (u "71", fld "ascii" "ascii" 0 4 "Message Number");
  (u "72", fld "ascii" "ascii" 0 4 "Message Number, Last");
  (u "73", fld "ascii" "ascii" 0 6 "Date, Action");
  (u "74", fld "ascii" "ascii" 0 10 "Credits, Number");
  (u "75", fld "ascii" "ascii" 0 10 "Credits, Reversal Number");
  (u "76", fld "ascii" "ascii" 0 10 "Debits, Number");
  (u "77", fld "ascii" "ascii" 0 10 "Debits, Reversal Number");
  (u "78", fld "ascii" "ascii" 0 10 "Transfer, Number");
  (u "79", fld "ascii" "ascii" 0 10 "Transfer, Reversal Number");
  (u "80", fld "ascii" "ascii" 0 10 "Inquiries, Number");
  (u "81", fld "ascii" "ascii" 0 10 "Authorizations, Number");
  (u "82", fld "ascii" "ascii" 0 12 "Credits, Processing Fee Amount");
  (u "83", fld "ascii" "ascii" 0 12 "Credits, Transaction Fee Amount");
  (u "84", fld "ascii" "ascii" 0 12 "Debits, Processing Fee Amount");
  (u "85", fld "ascii" "ascii" 0 12 "Debits, Transaction Fee Amount");
  (u "86", fld "ascii" "ascii" 0 16 "Credits, Amount");
  (u "87", fld "ascii" "ascii" 0 16 "Credits, Reversal Amount");
  (u "88", fld "ascii" "ascii" 0 16 "Debits, Amount");
  (u "89", fld "ascii" "ascii" 0 16 "Debits, Reversal Amount");
  (u "90", fld "ascii" "ascii" 0 42 "Original Data Elements");
  (u "91", fld "ascii" "ascii" 0 1 "File Update Code");
  (u "92", fld "ascii" "ascii" 0 2 "File Security Code");
  (u "93", fld "ascii" "ascii" 0 5 "Response Indicator");
  (u "94", fld "ascii" "ascii" 0 7 "Service Indicator");
  (u "95", fld "ascii" "ascii" 0 42 "Replacement Amounts");
  (u "96", fld "b" "ascii" 0 8 "Message Security Code");
  (u "97", fld "ascii" "ascii" 0 17 "Amount, Net Settlement");
  (u "98", fld "ascii" "ascii" 0 25 "Payee");
  (u "99", fld "ascii" "ascii" 2 11 "Settlement Institution ID Code");
  (u "100", fld "ascii" "ascii" 2 11 "Receiving Institution ID Code");
  (u "101", fld "ascii" "ascii" 2 17 "File Name");
  (u "102", fld "ascii" "ascii" 2 28 "Account ID 1");
  (u "103", fld "ascii" "ascii" 2 28 "Account ID 2");
  (u "104", fld "ascii" "ascii" 3 100 "Transaction Description");
  (u "105", fld "ascii" "ascii" 3 999 "Reserved for ISO Use");
  (u "106", fld "ascii" "ascii" 3 999 "Reserved for ISO Use");
  (u "107", fld "ascii" "ascii" 3 999 "Reserved for ISO Use");
  (u "108", fld "ascii" "ascii" 3 999 "Reserved for ISO Use");
  (u "109", fld "ascii" "ascii" 3 999 "Reserved for ISO Use");
  (u "110", fld "ascii" "ascii" 3 999 "Reserved for ISO Use");
  (u "111", fld "ascii" "ascii" 3 999 "Reserved for ISO Use");
  (u "112", fld "ascii" "ascii" 3 999 "Reserved for National Use");
  (u "113", fld "ascii" "ascii" 3 999 "Reserved for National Use");
  (u "114", fld "ascii" "ascii" 3 999 "Reserved for National Use");
  (u "115", fld "ascii" "ascii" 3 999 "Reserved for National Use");
  (u "116", fld "ascii" "ascii" 3 999 "Reserved for National Use");
  (u "117", fld "ascii" "ascii" 3 999 "Reserved for National Use");
  (u "118", fld "ascii" "ascii" 3 999 "Reserved for National Use");
  (u "119", fld "ascii" "ascii" 3 999 "Reserved for National Use");
  (u "120", fld "ascii" "ascii" 3 999 "Reserved for Private Use");
  (u "121", fld "ascii" "ascii" 3 999 "Reserved for Private Use");
  (u "122", fld "ascii" "ascii" 3 999 "Reserved for Private Use");
  (u "123", fld "ascii" "ascii" 3 999 "Reserved for Private Use");
  (u "124", fld "ascii" "ascii" 3 999 "Reserved for Private Use");
  (u "125", fld "ascii" "ascii" 3 999 "Reserved for Private Use");
  (u "126", fld "ascii" "ascii" 3 999 "Reserved for Private Use");
  (u "127", fld "ascii" "ascii" 3 999 "Reserved for Private Use");
  (u "128", fld "b" "ascii" 0 8 "MAC")].

(** default_ascii, specs.py:1396-2314. *)
Definition default_ascii : spec := [
  (u "h", fld "ascii" "ascii" 0 0 "Message Header");
  (u "t", fld "ascii" "ascii" 0 4 "Message Type");
  (u "p", fld "ascii" "ascii" 0 16 "Bitmap, Primary");
  (u "1", fld "ascii" "ascii" 0 16 "Bitmap, Secondary");
  (u "2", fld "ascii" "ascii" 2 19 "Primary Account Number (PAN)");
  (u "3", fld "ascii" "ascii" 0 6 "Processing Code");
  (u "4", fld "ascii" "ascii" 0 12 "Amount, Transaction");
  (u "5", fld "ascii" "ascii" 0 12 "Amount, Settlement");
  (u "6", fld "ascii" "ascii" 0 12 "Amount, Cardholder Billing");
  (u "7", fld "ascii" "ascii" 0 10 "Transmission Date and Time");
  (u "8", fld "ascii" "ascii" 0 8 "Amount, Cardholder Billing Fee");
  (u "9", fld "ascii" "ascii" 0 8 "Conversion Rate, Settlement");
  (u "10", fld "ascii" "ascii" 0 8 "Conversion Rate, Cardholder Billing");
  (u "11", fld "ascii" "ascii" 0 6 "System Trace Audit Number");
  (u "12", fld "ascii" "ascii" 0 6 "Time, Local Transaction");
  (u "13", fld "ascii" "ascii" 0 4 "Date, Local Transaction");
  (u "14", fld "ascii" "ascii" 0 4 "Date, Expiration");
  (u "15", fld "ascii" "ascii" 0 4 "Date, Settlement");
  (u "16", fld "ascii" "ascii" 0 4 "Date, Conversion");
  (u "17", fld "ascii" "ascii" 0 4 "Date, Capture");
  (u "18", fld "ascii" "ascii" 0 4 "Merchant Type");
  (u "19", fld "ascii" "ascii" 0 3 "Acquiring Institution Country Code");
  (u "20", fld "ascii" "ascii" 0 3 "PAN Country Code");
  (u "21", fld "ascii" "ascii" 0 3 "Forwarding Institution Country Code");
  (u "22", fld "ascii" "ascii" 0 3 "Point-of-Service Entry Mode");
  (u "23", fld "ascii" "ascii" 0 3 "PAN Sequence Number");
  (u "24", fld "ascii" "ascii" 0 3 "Network International ID (NII)");
  (u "25", fld "ascii" "ascii" 0 2 "Point-of-Service Condition Code");
  (u "26", fld "ascii" "ascii" 0 2 "Point-of-Service Capture Code");
  (u "27", fld "ascii" "ascii" 0 1 "Authorizing ID Response Length");
  (u "28", fld "ascii" "ascii" 0 9 "Amount, Transaction Fee");
  (u "29", fld "ascii" "ascii" 0 9 "Amount, Settlement Fee");
  (u "30", fld "ascii" "ascii" 0 9 "Amount, Transaction Processing Fee");
  (u "31", fld "ascii" "ascii" 0 9 "Amount, Settlement Processing Fee");
  (u "32", fld "ascii" "ascii" 2 11 "Acquiring Institution ID Code");
  (u "33", fld "ascii" "ascii" 2 11 "Forwarding Institution ID Code");
  (u "34", fld "ascii" "ascii" 2 28 "Primary Account Number, Extended");
  (u "35", fld "ascii" "ascii" 2 37 "Track 2 Data");
  (u "36", fld "ascii" "ascii" 3 104 "Track 3 Data");
  (u "37", fld "ascii" "ascii" 0 12 "Retrieval Reference Number");
  (u "38", fld "ascii" "ascii" 0 6 "Authorization ID Response");
  (u "39", fld "ascii" "ascii" 0 2 "Response Code");
  (u "40", fld "ascii" "ascii" 0 3 "Service Restriction Code");
  (u "41", fld "ascii" "ascii" 0 8 "Card Acceptor Terminal ID");
  (u "42", fld "ascii" "ascii" 0 15 "Card Acceptor ID Code");
  (u "43", fld "ascii" "ascii" 0 40 "Card Acceptor Name/Location");
  (u "44", fld "ascii" "ascii" 2 25 "Additional Response Data");
  (u "45", fld "ascii" "ascii" 2 76 "Track 1 Data");
  (u "46", fld "ascii" "ascii" 3 999 "Additional Data - ISO");
  (u "47", fld "ascii" "ascii" 3 999 "Additional Data - National");
  (u "48", fld "ascii" "ascii" 3 999 "Additional Data - Private");
  (u "49", fld "ascii" "ascii" 0 3 "Currency Code, Transaction");
  (u "50", fld "ascii" "ascii" 0 3 "Currency Code, Settlement");
  (u "51", fld "ascii" "ascii" 0 3 "Currency Code, Cardholder Billing");
  (u "52", fld "ascii" "ascii" 0 16 "PIN");
  (u "53", fld "ascii" "ascii" 0 16 "Security-Related Control Information");
  (u "54", fld "ascii" "ascii" 3 240 "Additional Amounts");
  (u "55", fld "ascii" "ascii" 3 510 "ICC data");
  (u "56", fld "ascii" "ascii" 3 999 "Reserved ISO");
  (u "57", fld "ascii" "ascii" 3 999 "Reserved National");
  (u "58", fld "ascii" "ascii" 3 999 "Reserved National");
  (u "59", fld "ascii" "ascii" 3 999 "Reserved National");
  (u "60", fld "ascii" "ascii" 3 999 "Reserved National");
  (u "61", fld "ascii" "ascii" 3 999 "Reserved Private");
  (u "62", fld "ascii" "ascii" 3 999 "Reserved Private");
  (u "63", fld "ascii" "ascii" 3 999 "Reserved Private");
  (u "64", fld "ascii" "ascii" 0 16 "MAC");
  (u "65", fld "ascii" "ascii" 0 16 "Bitmap, Extended");
  (u "66", fld "ascii" "ascii" 0 1 "Settlement Code");
  (u "67", fld "ascii" "ascii" 0 2 "Extended Payment Code");
  (u "68", fld "ascii" "ascii" 0 3 "Receiving Institution Country Code");
  (u "69", fld "ascii" "ascii" 0 3 "Settlement Institution Country Code");
  (u "70", fld "ascii" "ascii" 0 3 "Network Management Information Code");
  (u "71", fld "ascii" "ascii" 0 4 "Message Number");
  (u "72", fld "ascii" "ascii" 0 4 "Message Number, Last");
  (u "73", fld "ascii" "ascii" 0 6 "Date, Action");
  (u "74", fld "ascii" "ascii" 0 10 "Credits, Number");
  (u "75", fld "ascii" "ascii" 0 10 "Credits, Reversal Number");
  (u "76", fld "ascii" "ascii" 0 10 "Debits, Number");
  (u "77", fld "ascii" "ascii" 0 10 "Debits, Reversal Number");
  (u "78", fld "ascii" "ascii" 0 10 "Transfer, Number");
  (u "79", fld "ascii" "ascii" 0 10 "Transfer, Reversal Number");
  (u "80", fld "ascii" "ascii" 0 10 "Inquiries, Number");
  (u "81", fld "ascii" "ascii" 0 10 "Authorizations, Number");
  (u "82", fld "ascii" "ascii" 0 12 "Credits, Processing Fee Amount");
  (u "83", fld "ascii" "ascii" 0 12 "Credits, Transaction Fee Amount");
  (u "84", fld "ascii" "ascii" 0 12 "Debits, Processing Fee Amount");
  (u "85", fld "ascii" "ascii" 0 12 "Debits, Transaction Fee Amount");
  (u "86", fld "ascii" "ascii" 0 16 "Credits, Amount");
  (u "87", fld "ascii" "ascii" 0 16 "Credits, Reversal Amount");
  (u "88", fld "ascii" "ascii" 0 16 "Debits, Amount");
  (u "89", fld "ascii" "ascii" 0 16 "Debits, Reversal Amount");
  (u "90", fld "ascii" "ascii" 0 42 "Original Data Elements");
  (u "91", fld "ascii" "ascii" 0 1 "File Update Code");
  (u "92", fld "ascii" "ascii" 0 2 "File Security Code");
  (u "93", fld "ascii" "ascii" 0 5 "Response Indicator");
  (u "94", fld "ascii" "ascii" 0 7 "Service Indicator");
  (u "95", fld "ascii" "ascii" 0 42 "Replacement Amounts");
  (u "96", fld "ascii" "ascii" 0 16 "Message Security Code");
  (u "97", fld "ascii" "ascii" 0 17 "Amount, Net Settlement");
  (u "98", fld "ascii" "ascii" 0 25 "Payee");
  (u "99", fld "ascii" "ascii" 2 11 "Settlement Institution ID Code");
  (u "100", fld "ascii" "ascii" 2 11 "Receiving Institution ID Code");
  (u "101", fld "ascii" "ascii" 2 17 "File Name");
  (u "102", fld "ascii" "ascii" 2 28 "Account ID 1");
  (u "103", fld "ascii" "ascii" 2 28 "Account ID 2");
  (u "104", fld "ascii" "ascii" 3 100 "Transaction Description");
  (u "105", fld "ascii" "ascii" 3 999 "Reserved for ISO Use");
  (u "106", fld "ascii" "ascii" 3 999 "Reserved for ISO Use");
  (u "107", fld "ascii" "ascii" 3 999 "Reserved for ISO Use");
  (u "108", fld "ascii" "ascii" 3 999 "Reserved for ISO Use");
  (u "109", fld "ascii" "ascii" 3 999 "Reserved for ISO Use");
  (u "110", fld "ascii" "ascii" 3 999 "Reserved for ISO Use");
  (u "111", fld "ascii" "ascii" 3 999 "Reserved for ISO Use");
  (u "112", fld "ascii" "ascii" 3 999 "Reserved for National Use");
  (u "113", fld "ascii" "ascii" 3 999 "Reserved for National Use");
  (u "114", fld "ascii" "ascii" 3 999 "Reserved for National Use");
  (u "115", fld "ascii" "ascii" 3 999 "Reserved for National Use");
  (u "116", fld "ascii" "ascii" 3 999 "Reserved for National Use");
  (u "117", fld "ascii" "ascii" 3 999 "Reserved for National Use");
  (u "118", fld "ascii" "ascii" 3 999 "Reserved for National Use");
  (u "119", fld "ascii" "ascii" 3 999 "Reserved for National Use");
  (u "120", fld "ascii" "ascii" 3 999 "Reserved for Private Use");
  (u "121", fld "ascii" "ascii" 3 999 "Reserved for Private Use");
  (u "122", fld "ascii" "ascii" 3 999 "Reserved for Private Use");
  (u "123", fld "ascii" "ascii" 3 999 "Reserved for Private Use");
  (u "124", fld "ascii" "ascii" 3 999 "Reserved for Private Use");
  (u "125", fld "ascii" "ascii" 3 999 "Reserved for Private Use");
  (u "126", fld "ascii" "ascii" 3 999 "Reserved for Private Use");
  (u "127", fld "ascii" "ascii" 3 999 "Reserved for Private Use");
  (u "128", fld "ascii" "ascii" 0 16 "MAC")].
