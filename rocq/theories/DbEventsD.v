(** Generated by tools/gen_db.py from /repo/assets/PhoneNumberMetadata.xml: XML events,
    territories 193 to 254 of 254.  See the script for what is dropped. *)
From Verif Require Import Base CountryId Types Metadata Loader DbEventsDefs.
Local Open Scope bstr_scope.

Definition ev_192 : list event :=
  st "territory" [("id", "SE"); ("countryCode", "46"); ("internationalPrefix", "00"); ("nationalPrefix", "0"); ("mobileNumberPortableRegion", "true")]
  ++ st "availableFormats" []
  ++ st "numberFormat" [("pattern", "(\d{2})(\d{2,3})(\d{2})"); ("nationalPrefixFormattingRule", "$NP$FG")]
  ++ tx "leadingDigits" "20"
  ++ tx "format" "$1-$2 $3"
  ++ tx "intlFormat" "$1 $2 $3"
  ++ en "numberFormat"
  ++ st "numberFormat" [("pattern", "(\d{3})(\d{4})"); ("nationalPrefixFormattingRule", "$NP$FG")]
  ++ tx "leadingDigits" "9(?:00|39|44|9)"
  ++ tx "format" "$1-$2"
  ++ tx "intlFormat" "$1 $2"
  ++ en "numberFormat"
  ++ st "numberFormat" [("pattern", "(\d{2})(\d{3})(\d{2})"); ("nationalPrefixFormattingRule", "$NP$FG")]
  ++ tx "leadingDigits" "[12][136]|3[356]|4[0246]|6[03]|90[1-9]"
  ++ tx "format" "$1-$2 $3"
  ++ tx "intlFormat" "$1 $2 $3"
  ++ en "numberFormat"
  ++ st "numberFormat" [("pattern", "(\d)(\d{2,3})(\d{2})(\d{2})"); ("nationalPrefixFormattingRule", "$NP$FG")]
  ++ tx "leadingDigits" "8"
  ++ tx "format" "$1-$2 $3 $4"
  ++ tx "intlFormat" "$1 $2 $3 $4"
  ++ en "numberFormat"
  ++ st "numberFormat" [("pattern", "(\d{3})(\d{2,3})(\d{2})"); ("nationalPrefixFormattingRule", "$NP$FG")]
  ++ tx "leadingDigits" "1[2457]|2(?:[247-9]|5[0138])|3[0247-9]|4[1357-9]|5[0-35-9]|6(?:[125689]|4[02-57]|7[0-2])|9(?:[125-8]|3[02-5]|4[0-3])"
  ++ tx "format" "$1-$2 $3"
  ++ tx "intlFormat" "$1 $2 $3"
  ++ en "numberFormat"
  ++ st "numberFormat" [("pattern", "(\d{3})(\d{2,3})(\d{3})"); ("nationalPrefixFormattingRule", "$NP$FG")]
  ++ tx "leadingDigits" "9(?:00|39|44)"
  ++ tx "format" "$1-$2 $3"
  ++ tx "intlFormat" "$1 $2 $3"
  ++ en "numberFormat"
  ++ st "numberFormat" [("pattern", "(\d{2})(\d{2,3})(\d{2})(\d{2})"); ("nationalPrefixFormattingRule", "$NP$FG")]
  ++ tx "leadingDigits" "1[13689]|2[0136]|3[1356]|4[0246]|54|6[03]|90[1-9]"
  ++ tx "format" "$1-$2 $3 $4"
  ++ tx "intlFormat" "$1 $2 $3 $4"
  ++ en "numberFormat"
  ++ st "numberFormat" [("pattern", "(\d{2})(\d{3})(\d{2})(\d{2})"); ("nationalPrefixFormattingRule", "$NP$FG")]
  ++ tx "leadingDigits" "10|7"
  ++ tx "format" "$1-$2 $3 $4"
  ++ tx "intlFormat" "$1 $2 $3 $4"
  ++ en "numberFormat"
  ++ st "numberFormat" [("pattern", "(\d)(\d{3})(\d{3})(\d{2})"); ("nationalPrefixFormattingRule", "$NP$FG")]
  ++ tx "leadingDigits" "8"
  ++ tx "format" "$1-$2 $3 $4"
  ++ tx "intlFormat" "$1 $2 $3 $4"
  ++ en "numberFormat"
  ++ st "numberFormat" [("pattern", "(\d{3})(\d{2})(\d{2})(\d{2})"); ("nationalPrefixFormattingRule", "$NP$FG")]
  ++ tx "leadingDigits" "[13-5]|2(?:[247-9]|5[0138])|6(?:[124-689]|7[0-2])|9(?:[125-8]|3[02-5]|4[0-3])"
  ++ tx "format" "$1-$2 $3 $4"
  ++ tx "intlFormat" "$1 $2 $3 $4"
  ++ en "numberFormat"
  ++ st "numberFormat" [("pattern", "(\d{3})(\d{2})(\d{2})(\d{3})"); ("nationalPrefixFormattingRule", "$NP$FG")]
  ++ tx "leadingDigits" "9"
  ++ tx "format" "$1-$2 $3 $4"
  ++ tx "intlFormat" "$1 $2 $3 $4"
  ++ en "numberFormat"
  ++ st "numberFormat" [("pattern", "(\d{3})(\d{2})(\d{3})(\d{2})(\d{2})"); ("nationalPrefixFormattingRule", "$NP$FG")]
  ++ tx "leadingDigits" "[26]"
  ++ tx "format" "$1-$2 $3 $4 $5"
  ++ tx "intlFormat" "$1 $2 $3 $4 $5"
  ++ en "numberFormat"
  ++ en "availableFormats"
  ++ st "generalDesc" []
  ++ tx "nationalNumberPattern" "(?:[26]\d\d|9)\d{9}|[1-9]\d{8}|[1-689]\d{7}|[1-4689]\d{6}|2\d{5}"
  ++ en "generalDesc"
  ++ st "fixedLine" []
  ++ em "possibleLengths" [("national", "[7-9]")]
  ++ tx "exampleNumber" "8123456"
  ++ tx "nationalNumberPattern" "(?:(?:[12][136]|3[356]|4[0246]|6[03]|8\d)\d|90[1-9])\d{4,6}|(?:1(?:2[0-35]|4[0-4]|5[0-25-9]|7[13-6]|[89]\d)|2(?:2[0-7]|4[0136-8]|5[0138]|7[018]|8[01]|9[0-57])|3(?:0[0-4]|1\d|2[0-25]|4[056]|7[0-2]|8[0-3]|9[023])|4(?:1[013-8]|3[0135]|5[14-79]|7[0-246-9]|8[0156]|9[0-689])|5(?:0[0-6]|[15][0-5]|2[0-68]|3[0-4]|4\d|6[03-5]|7[013]|8[0-79]|9[01])|6(?:1[1-3]|2[0-4]|4[02-57]|5[0-37]|6[0-3]|7[0-2]|8[0247]|9[0-356])|9(?:1[0-68]|2\d|3[02-5]|4[0-3]|5[0-4]|[68][01]|7[0135-8]))\d{5,6}"
  ++ en "fixedLine"
  ++ st "mobile" []
  ++ em "possibleLengths" [("national", "9")]
  ++ tx "exampleNumber" "701234567"
  ++ tx "nationalNumberPattern" "7[02369]\d{7}"
  ++ en "mobile"
  ++ st "pager" []
  ++ em "possibleLengths" [("national", "9")]
  ++ tx "exampleNumber" "740123456"
  ++ tx "nationalNumberPattern" "74[02-9]\d{6}"
  ++ en "pager"
  ++ st "tollFree" []
  ++ em "possibleLengths" [("national", "[6-9]")]
  ++ tx "exampleNumber" "20123456"
  ++ tx "nationalNumberPattern" "20\d{4,7}"
  ++ en "tollFree"
  ++ st "premiumRate" []
  ++ em "possibleLengths" [("national", "[7-10]")]
  ++ tx "exampleNumber" "9001234567"
  ++ tx "nationalNumberPattern" "649\d{6}|99[1-59]\d{4}(?:\d{3})?|9(?:00|39|44)[1-8]\d{3,6}"
  ++ en "premiumRate"
  ++ st "sharedCost" []
  ++ em "possibleLengths" [("national", "9")]
  ++ tx "exampleNumber" "771234567"
  ++ tx "nationalNumberPattern" "77[0-7]\d{6}"
  ++ en "sharedCost"
  ++ st "personalNumber" []
  ++ em "possibleLengths" [("national", "9")]
  ++ tx "exampleNumber" "751234567"
  ++ tx "nationalNumberPattern" "75[1-8]\d{6}"
  ++ en "personalNumber"
  ++ st "uan" []
  ++ em "possibleLengths" [("national", "9")]
  ++ tx "exampleNumber" "102345678"
  ++ tx "nationalNumberPattern" "10[1-8]\d{6}"
  ++ en "uan"
  ++ st "voicemail" []
  ++ em "possibleLengths" [("national", "12")]
  ++ tx "exampleNumber" "254123456789"
  ++ tx "nationalNumberPattern" "(?:25[245]|67[3-68])\d{9}"
  ++ en "voicemail"
  ++ en "territory".

Definition ev_193 : list event :=
  st "territory" [("id", "SG"); ("countryCode", "65"); ("internationalPrefix", "0[0-3]\d"); ("mobileNumberPortableRegion", "true")]
  ++ st "availableFormats" []
  ++ st "numberFormat" [("pattern", "(\d{4,5})")]
  ++ tx "leadingDigits" "1[013-9]|77"
  ++ tx "leadingDigits" "1(?:[013-8]|9(?:0[1-9]|[1-9]))|77"
  ++ tx "format" "$1"
  ++ tx "intlFormat" "NA"
  ++ en "numberFormat"
  ++ st "numberFormat" [("pattern", "(\d{4})(\d{4})")]
  ++ tx "leadingDigits" "[369]|8(?:0[1-9]|[1-9])"
  ++ tx "format" "$1 $2"
  ++ en "numberFormat"
  ++ st "numberFormat" [("pattern", "(\d{3})(\d{3})(\d{4})")]
  ++ tx "leadingDigits" "8"
  ++ tx "format" "$1 $2 $3"
  ++ en "numberFormat"
  ++ st "numberFormat" [("pattern", "(\d{4})(\d{4})(\d{3})")]
  ++ tx "leadingDigits" "7"
  ++ tx "format" "$1 $2 $3"
  ++ en "numberFormat"
  ++ st "numberFormat" [("pattern", "(\d{4})(\d{3})(\d{4})")]
  ++ tx "leadingDigits" "1"
  ++ tx "format" "$1 $2 $3"
  ++ en "numberFormat"
  ++ en "availableFormats"
  ++ st "generalDesc" []
  ++ tx "nationalNumberPattern" "(?:(?:1\d|8)\d\d|7000)\d{7}|[3689]\d{7}"
  ++ en "generalDesc"
  ++ st "fixedLine" []
  ++ em "possibleLengths" [("national", "8")]
  ++ tx "exampleNumber" "61234567"
  ++ tx "nationalNumberPattern" "662[0-24-9]\d{4}|6(?:[0-578]\d|6[013-57-9]|9[0-35-9])\d{5}"
  ++ en "fixedLine"
  ++ st "mobile" []
  ++ em "possibleLengths" [("national", "8")]
  ++ tx "exampleNumber" "81234567"
  ++ tx "nationalNumberPattern" "80[1-9]\d{5}|(?:8[1-9]|9[0-8])\d{6}"
  ++ en "mobile"
  ++ st "tollFree" []
  ++ em "possibleLengths" [("national", "10,11")]
  ++ tx "exampleNumber" "18001234567"
  ++ tx "nationalNumberPattern" "(?:18|8)00\d{7}"
  ++ en "tollFree"
  ++ st "premiumRate" []
  ++ em "possibleLengths" [("national", "11")]
  ++ tx "exampleNumber" "19001234567"
  ++ tx "nationalNumberPattern" "1900\d{7}"
  ++ en "premiumRate"
  ++ st "voip" []
  ++ em "possibleLengths" [("national", "8")]
  ++ tx "exampleNumber" "31234567"
  ++ tx "nationalNumberPattern" "(?:3[12]\d|666)\d{5}"
  ++ en "voip"
  ++ st "uan" []
  ++ em "possibleLengths" [("national", "11")]
  ++ tx "exampleNumber" "70001234567"
  ++ tx "nationalNumberPattern" "7000\d{7}"
  ++ en "uan"
  ++ en "territory".

Definition ev_194 : list event :=
  st "territory" [("id", "SH"); ("mainCountryForCode", "true"); ("countryCode", "290"); ("leadingDigits", "[256]"); ("internationalPrefix", "00")]
  ++ st "generalDesc" []
  ++ tx "nationalNumberPattern" "(?:[256]\d|8)\d{3}"
  ++ en "generalDesc"
  ++ st "fixedLine" []
  ++ em "possibleLengths" [("national", "4,5")]
  ++ tx "exampleNumber" "22158"
  ++ tx "nationalNumberPattern" "2(?:[0-57-9]\d|6[4-9])\d\d"
  ++ en "fixedLine"
  ++ st "mobile" []
  ++ em "possibleLengths" [("national", "5")]
  ++ tx "exampleNumber" "51234"
  ++ tx "nationalNumberPattern" "[56]\d{4}"
  ++ en "mobile"
  ++ st "voip" []
  ++ em "possibleLengths" [("national", "5")]
  ++ tx "exampleNumber" "26212"
  ++ tx "nationalNumberPattern" "262\d\d"
  ++ en "voip"
  ++ en "territory".

Definition ev_195 : list event :=
  st "territory" [("id", "SI"); ("countryCode", "386"); ("preferredInternationalPrefix", "00"); ("internationalPrefix", "00|10(?:22|66|88|99)"); ("nationalPrefix", "0"); ("mobileNumberPortableRegion", "true")]
  ++ st "availableFormats" []
  ++ st "numberFormat" [("pattern", "(\d{2})(\d{3,6})"); ("nationalPrefixFormattingRule", "$NP$FG")]
  ++ tx "leadingDigits" "8[09]|9"
  ++ tx "format" "$1 $2"
  ++ en "numberFormat"
  ++ st "numberFormat" [("pattern", "(\d{3})(\d{5})"); ("nationalPrefixFormattingRule", "$NP$FG")]
  ++ tx "leadingDigits" "59|8"
  ++ tx "format" "$1 $2"
  ++ en "numberFormat"
  ++ st "numberFormat" [("pattern", "(\d{2})(\d{3})(\d{3})"); ("nationalPrefixFormattingRule", "$NP$FG")]
  ++ tx "leadingDigits" "[37][01]|4[013]|51|6"
  ++ tx "format" "$1 $2 $3"
  ++ en "numberFormat"
  ++ st "numberFormat" [("pattern", "(\d)(\d{3})(\d{2})(\d{2})"); ("nationalPrefixFormattingRule", "($NP$FG)")]
  ++ tx "leadingDigits" "[1-57]"
  ++ tx "format" "$1 $2 $3 $4"
  ++ en "numberFormat"
  ++ en "availableFormats"
  ++ st "generalDesc" []
  ++ tx "nationalNumberPattern" "[1-7]\d{7}|8\d{4,7}|90\d{4,6}"
  ++ en "generalDesc"
  ++ st "fixedLine" []
  ++ em "possibleLengths" [("national", "8"); ("localOnly", "7")]
  ++ tx "exampleNumber" "12345678"
  ++ tx "nationalNumberPattern" "(?:[1-357][2-8]|4[24-8])\d{6}"
  ++ en "fixedLine"
  ++ st "mobile" []
  ++ em "possibleLengths" [("national", "8")]
  ++ tx "exampleNumber" "31234567"
  ++ tx "nationalNumberPattern" "65(?:[178]\d|5[56]|6[01])\d{4}|(?:[37][01]|4[013]|51|6[489])\d{6}"
  ++ en "mobile"
  ++ st "tollFree" []
  ++ em "possibleLengths" [("national", "[6-8]")]
  ++ tx "exampleNumber" "80123456"
  ++ tx "nationalNumberPattern" "80\d{4,6}"
  ++ en "tollFree"
  ++ st "premiumRate" []
  ++ em "possibleLengths" [("national", "[5-8]")]
  ++ tx "exampleNumber" "90123456"
  ++ tx "nationalNumberPattern" "89[1-3]\d{2,5}|90\d{4,6}"
  ++ en "premiumRate"
  ++ st "voip" []
  ++ em "possibleLengths" [("national", "8")]
  ++ tx "exampleNumber" "59012345"
  ++ tx "nationalNumberPattern" "(?:59\d\d|8(?:1(?:[67]\d|8[0-589])|2(?:0\d|2[0-37-9]|8[0-2489])|3[389]\d))\d{4}"
  ++ en "voip"
  ++ en "territory".

Definition ev_196 : list event :=
  st "territory" [("id", "SJ"); ("countryCode", "47"); ("leadingDigits", "79"); ("internationalPrefix", "00")]
  ++ st "generalDesc" []
  ++ tx "nationalNumberPattern" "0\d{4}|(?:[489]\d|79)\d{6}"
  ++ en "generalDesc"
  ++ st "fixedLine" []
  ++ em "possibleLengths" [("national", "8")]
  ++ tx "exampleNumber" "79123456"
  ++ tx "nationalNumberPattern" "79\d{6}"
  ++ en "fixedLine"
  ++ st "mobile" []
  ++ em "possibleLengths" [("national", "8")]
  ++ tx "exampleNumber" "41234567"
  ++ tx "nationalNumberPattern" "[49]\d{7}"
  ++ en "mobile"
  ++ st "tollFree" []
  ++ em "possibleLengths" [("national", "8")]
  ++ tx "exampleNumber" "80012345"
  ++ tx "nationalNumberPattern" "80[01]\d{5}"
  ++ en "tollFree"
  ++ st "premiumRate" []
  ++ em "possibleLengths" [("national", "8")]
  ++ tx "exampleNumber" "82012345"
  ++ tx "nationalNumberPattern" "82[09]\d{5}"
  ++ en "premiumRate"
  ++ st "sharedCost" []
  ++ em "possibleLengths" [("national", "8")]
  ++ tx "exampleNumber" "81021234"
  ++ tx "nationalNumberPattern" "810(?:0[0-6]|[2-8]\d)\d{3}"
  ++ en "sharedCost"
  ++ st "personalNumber" []
  ++ em "possibleLengths" [("national", "8")]
  ++ tx "exampleNumber" "88012345"
  ++ tx "nationalNumberPattern" "880\d{5}"
  ++ en "personalNumber"
  ++ st "voip" []
  ++ em "possibleLengths" [("national", "8")]
  ++ tx "exampleNumber" "85012345"
  ++ tx "nationalNumberPattern" "85[0-5]\d{5}"
  ++ en "voip"
  ++ st "uan" []
  ++ em "possibleLengths" [("national", "5,8")]
  ++ tx "exampleNumber" "02000"
  ++ tx "nationalNumberPattern" "(?:0[235-9]|81(?:0(?:0[7-9]|1\d)|5\d\d))\d{3}"
  ++ en "uan"
  ++ st "voicemail" []
  ++ em "possibleLengths" [("national", "8")]
  ++ tx "exampleNumber" "81212345"
  ++ tx "nationalNumberPattern" "81[23]\d{5}"
  ++ en "voicemail"
  ++ en "territory".

Definition ev_197 : list event :=
  st "territory" [("id", "SK"); ("countryCode", "421"); ("internationalPrefix", "00"); ("nationalPrefix", "0"); ("mobileNumberPortableRegion", "true")]
  ++ st "availableFormats" []
  ++ st "numberFormat" [("pattern", "(\d)(\d{2})(\d{3,4})"); ("nationalPrefixFormattingRule", "$NP$FG")]
  ++ tx "leadingDigits" "21"
  ++ tx "format" "$1 $2 $3"
  ++ en "numberFormat"
  ++ st "numberFormat" [("pattern", "(\d{2})(\d{2})(\d{2,3})"); ("nationalPrefixFormattingRule", "$NP$FG")]
  ++ tx "leadingDigits" "[3-5][1-8]1"
  ++ tx "leadingDigits" "[3-5][1-8]1[67]"
  ++ tx "format" "$1 $2 $3"
  ++ en "numberFormat"
  ++ st "numberFormat" [("pattern", "(\d{4})(\d{3})"); ("nationalPrefixFormattingRule", "$NP$FG")]
  ++ tx "leadingDigits" "909"
  ++ tx "leadingDigits" "9090"
  ++ tx "format" "$1 $2"
  ++ tx "intlFormat" "NA"
  ++ en "numberFormat"
  ++ st "numberFormat" [("pattern", "(\d)(\d{3})(\d{3})(\d{2})"); ("nationalPrefixFormattingRule", "$NP$FG")]
  ++ tx "leadingDigits" "2"
  ++ tx "format" "$1 $2 $3 $4"
  ++ en "numberFormat"
  ++ st "numberFormat" [("pattern", "(\d{3})(\d{3})(\d{3})"); ("nationalPrefixFormattingRule", "$NP$FG")]
  ++ tx "leadingDigits" "[689]"
  ++ tx "format" "$1 $2 $3"
  ++ en "numberFormat"
  ++ st "numberFormat" [("pattern", "(\d{2})(\d{3})(\d{2})(\d{2})"); ("nationalPrefixFormattingRule", "$NP$FG")]
  ++ tx "leadingDigits" "[3-5]"
  ++ tx "format" "$1 $2 $3 $4"
  ++ en "numberFormat"
  ++ en "availableFormats"
  ++ st "generalDesc" []
  ++ tx "nationalNumberPattern" "[2-689]\d{8}|[2-59]\d{6}|[2-5]\d{5}"
  ++ en "generalDesc"
  ++ st "noInternationalDialling" []
  ++ em "possibleLengths" [("national", "7,9")]
  ++ tx "nationalNumberPattern" "9090\d{3}|(?:602|8(?:00|[5-9]\d)|9(?:00|[78]\d))\d{6}"
  ++ en "noInternationalDialling"
  ++ st "fixedLine" []
  ++ em "possibleLengths" [("national", "6,7,9")]
  ++ tx "exampleNumber" "221234567"
  ++ tx "nationalNumberPattern" "(?:2(?:16|[2-9]\d{3})|(?:(?:[3-5][1-8]\d|819)\d|601[1-5])\d)\d{4}|(?:2|[3-5][1-8])1[67]\d{3}|[3-5][1-8]16\d\d"
  ++ en "fixedLine"
  ++ st "mobile" []
  ++ em "possibleLengths" [("national", "9")]
  ++ tx "exampleNumber" "912123456"
  ++ tx "nationalNumberPattern" "909[1-9]\d{5}|9(?:0[1-8]|1[0-24-9]|4[03-57-9]|5\d)\d{6}"
  ++ en "mobile"
  ++ st "pager" []
  ++ em "possibleLengths" [("national", "7")]
  ++ tx "exampleNumber" "9090123"
  ++ tx "nationalNumberPattern" "9090\d{3}"
  ++ en "pager"
  ++ st "tollFree" []
  ++ em "possibleLengths" [("national", "9")]
  ++ tx "exampleNumber" "800123456"
  ++ tx "nationalNumberPattern" "800\d{6}"
  ++ en "tollFree"
  ++ st "premiumRate" []
  ++ em "possibleLengths" [("national", "9")]
  ++ tx "exampleNumber" "900123456"
  ++ tx "nationalNumberPattern" "9(?:00|[78]\d)\d{6}"
  ++ en "premiumRate"
  ++ st "sharedCost" []
  ++ em "possibleLengths" [("national", "9")]
  ++ tx "exampleNumber" "850123456"
  ++ tx "nationalNumberPattern" "8[5-9]\d{7}"
  ++ en "sharedCost"
  ++ st "voip" []
  ++ em "possibleLengths" [("national", "9")]
  ++ tx "exampleNumber" "690123456"
  ++ tx "nationalNumberPattern" "6(?:02|5[0-4]|9[0-6])\d{6}"
  ++ en "voip"
  ++ st "uan" []
  ++ em "possibleLengths" [("national", "9")]
  ++ tx "exampleNumber" "961234567"
  ++ tx "nationalNumberPattern" "96\d{7}"
  ++ en "uan"
  ++ en "territory".

Definition ev_198 : list event :=
  st "territory" [("id", "SL"); ("countryCode", "232"); ("internationalPrefix", "00"); ("nationalPrefix", "0")]
  ++ st "availableFormats" []
  ++ st "numberFormat" [("pattern", "(\d{2})(\d{6})"); ("nationalPrefixFormattingRule", "($NP$FG)")]
  ++ tx "leadingDigits" "[236-9]"
  ++ tx "format" "$1 $2"
  ++ en "numberFormat"
  ++ en "availableFormats"
  ++ st "generalDesc" []
  ++ tx "nationalNumberPattern" "(?:[237-9]\d|66)\d{6}"
  ++ en "generalDesc"
  ++ st "fixedLine" []
  ++ em "possibleLengths" [("national", "8"); ("localOnly", "6")]
  ++ tx "exampleNumber" "22221234"
  ++ tx "nationalNumberPattern" "22[2-4][2-9]\d{4}"
  ++ en "fixedLine"
  ++ st "mobile" []
  ++ em "possibleLengths" [("national", "8")]
  ++ tx "exampleNumber" "25123456"
  ++ tx "nationalNumberPattern" "(?:25|3[0-5]|66|7\d|8[08]|9[09])\d{6}"
  ++ en "mobile"
  ++ en "territory".

Definition ev_199 : list event :=
  st "territory" [("id", "SM"); ("countryCode", "378"); ("internationalPrefix", "00"); ("nationalPrefixForParsing", "([89]\d{5})$"); ("nationalPrefixTransformRule", "0549$1")]
  ++ st "availableFormats" []
  ++ st "numberFormat" [("pattern", "(\d{6})")]
  ++ tx "leadingDigits" "[89]"
  ++ tx "format" "$1"
  ++ tx "intlFormat" "NA"
  ++ en "numberFormat"
  ++ st "numberFormat" [("pattern", "(\d{2})(\d{2})(\d{2})(\d{2})")]
  ++ tx "leadingDigits" "[5-7]"
  ++ tx "format" "$1 $2 $3 $4"
  ++ en "numberFormat"
  ++ st "numberFormat" [("pattern", "(\d{4})(\d{6})")]
  ++ tx "leadingDigits" "0"
  ++ tx "format" "$1 $2"
  ++ en "numberFormat"
  ++ en "availableFormats"
  ++ st "generalDesc" []
  ++ tx "nationalNumberPattern" "(?:0549|[5-7]\d)\d{6}"
  ++ en "generalDesc"
  ++ st "fixedLine" []
  ++ em "possibleLengths" [("national", "10"); ("localOnly", "6")]
  ++ tx "exampleNumber" "0549886377"
  ++ tx "nationalNumberPattern" "0549(?:8[0157-9]|9\d)\d{4}"
  ++ en "fixedLine"
  ++ st "mobile" []
  ++ em "possibleLengths" [("national", "8")]
  ++ tx "exampleNumber" "66661212"
  ++ tx "nationalNumberPattern" "6[16]\d{6}"
  ++ en "mobile"
  ++ st "premiumRate" []
  ++ em "possibleLengths" [("national", "8")]
  ++ tx "exampleNumber" "71123456"
  ++ tx "nationalNumberPattern" "7[178]\d{6}"
  ++ en "premiumRate"
  ++ st "voip" []
  ++ em "possibleLengths" [("national", "8")]
  ++ tx "exampleNumber" "58001110"
  ++ tx "nationalNumberPattern" "5[158]\d{6}"
  ++ en "voip"
  ++ en "territory".

Definition ev_200 : list event :=
  st "territory" [("id", "SN"); ("countryCode", "221"); ("internationalPrefix", "00")]
  ++ st "availableFormats" []
  ++ st "numberFormat" [("pattern", "(\d{3})(\d{2})(\d{2})(\d{2})")]
  ++ tx "leadingDigits" "8"
  ++ tx "format" "$1 $2 $3 $4"
  ++ en "numberFormat"
  ++ st "numberFormat" [("pattern", "(\d{2})(\d{3})(\d{2})(\d{2})")]
  ++ tx "leadingDigits" "[379]"
  ++ tx "format" "$1 $2 $3 $4"
  ++ en "numberFormat"
  ++ en "availableFormats"
  ++ st "generalDesc" []
  ++ tx "nationalNumberPattern" "(?:[378]\d|93)\d{7}"
  ++ en "generalDesc"
  ++ st "fixedLine" []
  ++ em "possibleLengths" [("national", "9")]
  ++ tx "exampleNumber" "301012345"
  ++ tx "nationalNumberPattern" "3(?:0(?:1[0-2]|80)|282|3(?:8[1-9]|9[3-9])|611)\d{5}"
  ++ en "fixedLine"
  ++ st "mobile" []
  ++ em "possibleLengths" [("national", "9")]
  ++ tx "exampleNumber" "701234567"
  ++ tx "nationalNumberPattern" "7(?:[015-8]\d|21|90)\d{6}"
  ++ en "mobile"
  ++ st "tollFree" []
  ++ em "possibleLengths" [("national", "9")]
  ++ tx "exampleNumber" "800123456"
  ++ tx "nationalNumberPattern" "800\d{6}"
  ++ en "tollFree"
  ++ st "premiumRate" []
  ++ em "possibleLengths" [("national", "9")]
  ++ tx "exampleNumber" "884123456"
  ++ tx "nationalNumberPattern" "88[4689]\d{6}"
  ++ en "premiumRate"
  ++ st "sharedCost" []
  ++ em "possibleLengths" [("national", "9")]
  ++ tx "exampleNumber" "810123456"
  ++ tx "nationalNumberPattern" "81[02468]\d{6}"
  ++ en "sharedCost"
  ++ st "voip" []
  ++ em "possibleLengths" [("national", "9")]
  ++ tx "exampleNumber" "933301234"
  ++ tx "nationalNumberPattern" "(?:3(?:392|9[01]\d)\d|93(?:3[13]0|929))\d{4}"
  ++ en "voip"
  ++ en "territory".

Definition ev_201 : list event :=
  st "territory" [("id", "SO"); ("countryCode", "252"); ("internationalPrefix", "00"); ("nationalPrefix", "0")]
  ++ st "availableFormats" []
  ++ st "numberFormat" [("pattern", "(\d{2})(\d{4})")]
  ++ tx "leadingDigits" "8[125]"
  ++ tx "format" "$1 $2"
  ++ en "numberFormat"
  ++ st "numberFormat" [("pattern", "(\d{6})")]
  ++ tx "leadingDigits" "[134]"
  ++ tx "format" "$1"
  ++ en "numberFormat"
  ++ st "numberFormat" [("pattern", "(\d)(\d{6})")]
  ++ tx "leadingDigits" "[15]|2[0-79]|3[0-46-8]|4[0-7]"
  ++ tx "format" "$1 $2"
  ++ en "numberFormat"
  ++ st "numberFormat" [("pattern", "(\d{2})(\d{5,7})")]
  ++ tx "leadingDigits" "1|28|9[2-9]"
  ++ tx "format" "$1 $2"
  ++ en "numberFormat"
  ++ st "numberFormat" [("pattern", "(\d)(\d{7})")]
  ++ tx "leadingDigits" "[267]|904"
  ++ tx "format" "$1 $2"
  ++ en "numberFormat"
  ++ st "numberFormat" [("pattern", "(\d{2})(\d{3})(\d{4})")]
  ++ tx "leadingDigits" "[346-9]"
  ++ tx "format" "$1 $2 $3"
  ++ en "numberFormat"
  ++ en "availableFormats"
  ++ st "generalDesc" []
  ++ tx "nationalNumberPattern" "[346-9]\d{8}|[12679]\d{7}|[1-5]\d{6}|[1348]\d{5}"
  ++ en "generalDesc"
  ++ st "fixedLine" []
  ++ em "possibleLengths" [("national", "6,7")]
  ++ tx "exampleNumber" "4012345"
  ++ tx "nationalNumberPattern" "(?:1\d|2[0-79]|3[0-46-8]|4[0-7]|5[57-9])\d{5}|(?:[134]\d|8[125])\d{4}"
  ++ en "fixedLine"
  ++ st "mobile" []
  ++ em "possibleLengths" [("national", "[7-9]")]
  ++ tx "exampleNumber" "71123456"
  ++ tx "nationalNumberPattern" "(?:(?:15|(?:3[59]|4[89]|6\d|7[0-35-9]|8[08])\d|9(?:0\d|[2-9]))\d|2(?:4\d|8))\d{5}|(?:[67]\d\d|904)\d{5}"
  ++ en "mobile"
  ++ en "territory".

Definition ev_202 : list event :=
  st "territory" [("id", "SR"); ("countryCode", "597"); ("internationalPrefix", "00")]
  ++ st "availableFormats" []
  ++ st "numberFormat" [("pattern", "(\d{2})(\d{2})(\d{2})")]
  ++ tx "leadingDigits" "56"
  ++ tx "format" "$1-$2-$3"
  ++ en "numberFormat"
  ++ st "numberFormat" [("pattern", "(\d{3})(\d{3})")]
  ++ tx "leadingDigits" "[2-5]"
  ++ tx "format" "$1-$2"
  ++ en "numberFormat"
  ++ st "numberFormat" [("pattern", "(\d{3})(\d{4})")]
  ++ tx "leadingDigits" "[6-9]"
  ++ tx "format" "$1-$2"
  ++ en "numberFormat"
  ++ en "availableFormats"
  ++ st "generalDesc" []
  ++ tx "nationalNumberPattern" "(?:[2-5]|[6-9]\d)\d{5}"
  ++ en "generalDesc"
  ++ st "fixedLine" []
  ++ em "possibleLengths" [("national", "6")]
  ++ tx "exampleNumber" "211234"
  ++ tx "nationalNumberPattern" "(?:2[1-3]|3[0-7]|4\d|5[2-578])\d{4}"
  ++ en "fixedLine"
  ++ st "mobile" []
  ++ em "possibleLengths" [("national", "7")]
  ++ tx "exampleNumber" "7412345"
  ++ tx "nationalNumberPattern" "(?:6[08]|7[124-7]|8[1-9])\d{5}"
  ++ en "mobile"
  ++ st "tollFree" []
  ++ em "possibleLengths" [("national", "7")]
  ++ tx "exampleNumber" "8012345"
  ++ tx "nationalNumberPattern" "80\d{5}"
  ++ en "tollFree"
  ++ st "premiumRate" []
  ++ em "possibleLengths" [("national", "7")]
  ++ tx "exampleNumber" "9012345"
  ++ tx "nationalNumberPattern" "90\d{5}"
  ++ en "premiumRate"
  ++ st "voip" []
  ++ em "possibleLengths" [("national", "6,7")]
  ++ tx "exampleNumber" "561234"
  ++ tx "nationalNumberPattern" "(?:56|91\d)\d{4}"
  ++ en "voip"
  ++ en "territory".

Definition ev_203 : list event :=
  st "territory" [("id", "SS"); ("countryCode", "211"); ("internationalPrefix", "00"); ("nationalPrefix", "0")]
  ++ st "availableFormats" []
  ++ st "numberFormat" [("pattern", "(\d{3})(\d{3})(\d{3})"); ("nationalPrefixFormattingRule", "$NP$FG")]
  ++ tx "leadingDigits" "[19]"
  ++ tx "format" "$1 $2 $3"
  ++ en "numberFormat"
  ++ en "availableFormats"
  ++ st "generalDesc" []
  ++ tx "nationalNumberPattern" "[19]\d{8}"
  ++ en "generalDesc"
  ++ st "fixedLine" []
  ++ em "possibleLengths" [("national", "9")]
  ++ tx "exampleNumber" "181234567"
  ++ tx "nationalNumberPattern" "1[89]\d{7}"
  ++ en "fixedLine"
  ++ st "mobile" []
  ++ em "possibleLengths" [("national", "9")]
  ++ tx "exampleNumber" "977123456"
  ++ tx "nationalNumberPattern" "(?:12|9[1257-9])\d{7}"
  ++ en "mobile"
  ++ en "territory".

Definition ev_204 : list event :=
  st "territory" [("id", "ST"); ("countryCode", "239"); ("internationalPrefix", "00")]
  ++ st "availableFormats" []
  ++ st "numberFormat" [("pattern", "(\d{3})(\d{4})")]
  ++ tx "leadingDigits" "[29]"
  ++ tx "format" "$1 $2"
  ++ en "numberFormat"
  ++ en "availableFormats"
  ++ st "generalDesc" []
  ++ tx "nationalNumberPattern" "(?:22|9\d)\d{5}"
  ++ en "generalDesc"
  ++ st "fixedLine" []
  ++ em "possibleLengths" [("national", "7")]
  ++ tx "exampleNumber" "2221234"
  ++ tx "nationalNumberPattern" "22\d{5}"
  ++ en "fixedLine"
  ++ st "mobile" []
  ++ em "possibleLengths" [("national", "7")]
  ++ tx "exampleNumber" "9812345"
  ++ tx "nationalNumberPattern" "900[5-9]\d{3}|9(?:0[1-9]|[89]\d)\d{4}"
  ++ en "mobile"
  ++ en "territory".

Definition ev_205 : list event :=
  st "territory" [("id", "SV"); ("countryCode", "503"); ("internationalPrefix", "00")]
  ++ st "availableFormats" []
  ++ st "numberFormat" [("pattern", "(\d{3})(\d{4})")]
  ++ tx "leadingDigits" "[89]"
  ++ tx "format" "$1 $2"
  ++ en "numberFormat"
  ++ st "numberFormat" [("pattern", "(\d{4})(\d{4})")]
  ++ tx "leadingDigits" "[25-7]"
  ++ tx "format" "$1 $2"
  ++ en "numberFormat"
  ++ st "numberFormat" [("pattern", "(\d{3})(\d{4})(\d{4})")]
  ++ tx "leadingDigits" "[89]"
  ++ tx "format" "$1 $2 $3"
  ++ en "numberFormat"
  ++ en "availableFormats"
  ++ st "generalDesc" []
  ++ tx "nationalNumberPattern" "[25-7]\d{7}|(?:80\d|900)\d{4}(?:\d{4})?"
  ++ en "generalDesc"
  ++ st "fixedLine" []
  ++ em "possibleLengths" [("national", "8")]
  ++ tx "exampleNumber" "21234567"
  ++ tx "nationalNumberPattern" "2(?:79(?:0[0347-9]|[1-9]\d)|89(?:0[024589]|[1-9]\d))\d{3}|2(?:[1-69]\d|[78][0-8])\d{5}"
  ++ en "fixedLine"
  ++ st "mobile" []
  ++ em "possibleLengths" [("national", "8")]
  ++ tx "exampleNumber" "70123456"
  ++ tx "nationalNumberPattern" "[5-7]\d{7}"
  ++ en "mobile"
  ++ st "tollFree" []
  ++ em "possibleLengths" [("national", "7,11")]
  ++ tx "exampleNumber" "8001234"
  ++ tx "nationalNumberPattern" "800\d{8}|80[01]\d{4}"
  ++ en "tollFree"
  ++ st "premiumRate" []
  ++ em "possibleLengths" [("national", "7,11")]
  ++ tx "exampleNumber" "9001234"
  ++ tx "nationalNumberPattern" "900\d{4}(?:\d{4})?"
  ++ en "premiumRate"
  ++ en "territory".

Definition ev_206 : list event :=
  st "territory" [("id", "SX"); ("countryCode", "1"); ("leadingDigits", "721"); ("internationalPrefix", "011"); ("nationalPrefix", "1"); ("nationalPrefixForParsing", "(5\d{6})$|1"); ("nationalPrefixTransformRule", "721$1"); ("mobileNumberPortableRegion", "true")]
  ++ st "generalDesc" []
  ++ tx "nationalNumberPattern" "7215\d{6}|(?:[58]\d\d|900)\d{7}"
  ++ en "generalDesc"
  ++ st "fixedLine" []
  ++ em "possibleLengths" [("national", "10"); ("localOnly", "7")]
  ++ tx "exampleNumber" "7215425678"
  ++ tx "nationalNumberPattern" "7215(?:4[2-8]|8[39]|9[056])\d{4}"
  ++ en "fixedLine"
  ++ st "mobile" []
  ++ em "possibleLengths" [("national", "10"); ("localOnly", "7")]
  ++ tx "exampleNumber" "7215205678"
  ++ tx "nationalNumberPattern" "7215(?:1[02]|2\d|5[034679]|8[0-24-8])\d{4}"
  ++ en "mobile"
  ++ st "tollFree" []
  ++ em "possibleLengths" [("national", "10")]
  ++ tx "exampleNumber" "8002123456"
  ++ tx "nationalNumberPattern" "8(?:00|33|44|55|66|77|88)[2-9]\d{6}"
  ++ en "tollFree"
  ++ st "premiumRate" []
  ++ em "possibleLengths" [("national", "10")]
  ++ tx "exampleNumber" "9002123456"
  ++ tx "nationalNumberPattern" "900[2-9]\d{6}"
  ++ en "premiumRate"
  ++ st "personalNumber" []
  ++ em "possibleLengths" [("national", "10")]
  ++ tx "exampleNumber" "5002345678"
  ++ tx "nationalNumberPattern" "52(?:3(?:[2-46-9][02-9]\d|5(?:[02-46-9]\d|5[0-46-9]))|4(?:[2-478][02-9]\d|5(?:[034]\d|2[024-9]|5[0-46-9])|6(?:0[1-9]|[2-9]\d)|9(?:[05-9]\d|2[0-5]|49)))\d{4}|52[34][2-9]1[02-9]\d{4}|5(?:00|2[125-9]|3[23]|44|66|77|88)[2-9]\d{6}"
  ++ en "personalNumber"
  ++ en "territory".

Definition ev_207 : list event :=
  st "territory" [("id", "SY"); ("countryCode", "963"); ("internationalPrefix", "00"); ("nationalPrefix", "0")]
  ++ st "availableFormats" []
  ++ st "numberFormat" [("pattern", "(\d{2})(\d{3})(\d{3,4})"); ("nationalPrefixFormattingRule", "$NP$FG"); ("nationalPrefixOptionalWhenFormatting", "true")]
  ++ tx "leadingDigits" "[1-4]|5[1-3]"
  ++ tx "format" "$1 $2 $3"
  ++ en "numberFormat"
  ++ st "numberFormat" [("pattern", "(\d{3})(\d{3})(\d{3})"); ("nationalPrefixFormattingRule", "$NP$FG"); ("nationalPrefixOptionalWhenFormatting", "true")]
  ++ tx "leadingDigits" "[59]"
  ++ tx "format" "$1 $2 $3"
  ++ en "numberFormat"
  ++ en "availableFormats"
  ++ st "generalDesc" []
  ++ tx "nationalNumberPattern" "[1-359]\d{8}|[1-5]\d{7}"
  ++ en "generalDesc"
  ++ st "fixedLine" []
  ++ em "possibleLengths" [("national", "8,9"); ("localOnly", "6,7")]
  ++ tx "exampleNumber" "112345678"
  ++ tx "nationalNumberPattern" "21\d{6,7}|(?:1(?:[14]\d|[2356])|2[235]|3(?:[13]\d|4)|4[134]|5[1-3])\d{6}"
  ++ en "fixedLine"
  ++ st "mobile" []
  ++ em "possibleLengths" [("national", "9")]
  ++ tx "exampleNumber" "944567890"
  ++ tx "nationalNumberPattern" "(?:50|9[1-9])\d{7}"
  ++ en "mobile"
  ++ en "territory".

Definition ev_208 : list event :=
  st "territory" [("id", "SZ"); ("countryCode", "268"); ("internationalPrefix", "00")]
  ++ st "availableFormats" []
  ++ st "numberFormat" [("pattern", "(\d{4})(\d{4})")]
  ++ tx "leadingDigits" "[0237]"
  ++ tx "format" "$1 $2"
  ++ en "numberFormat"
  ++ st "numberFormat" [("pattern", "(\d{5})(\d{4})")]
  ++ tx "leadingDigits" "9"
  ++ tx "format" "$1 $2"
  ++ en "numberFormat"
  ++ en "availableFormats"
  ++ st "generalDesc" []
  ++ tx "nationalNumberPattern" "0800\d{4}|(?:[237]\d|900)\d{6}"
  ++ en "generalDesc"
  ++ st "noInternationalDialling" []
  ++ em "possibleLengths" [("national", "8")]
  ++ tx "nationalNumberPattern" "0800\d{4}"
  ++ en "noInternationalDialling"
  ++ st "fixedLine" []
  ++ em "possibleLengths" [("national", "8")]
  ++ tx "exampleNumber" "22171234"
  ++ tx "nationalNumberPattern" "[23][2-5]\d{6}"
  ++ en "fixedLine"
  ++ st "mobile" []
  ++ em "possibleLengths" [("national", "8")]
  ++ tx "exampleNumber" "76123456"
  ++ tx "nationalNumberPattern" "7[5-9]\d{6}"
  ++ en "mobile"
  ++ st "tollFree" []
  ++ em "possibleLengths" [("national", "8")]
  ++ tx "exampleNumber" "08001234"
  ++ tx "nationalNumberPattern" "0800\d{4}"
  ++ en "tollFree"
  ++ st "premiumRate" []
  ++ em "possibleLengths" [("national", "9")]
  ++ tx "exampleNumber" "900012345"
  ++ tx "nationalNumberPattern" "900\d{6}"
  ++ en "premiumRate"
  ++ st "voip" []
  ++ em "possibleLengths" [("national", "8")]
  ++ tx "exampleNumber" "70012345"
  ++ tx "nationalNumberPattern" "70\d{6}"
  ++ en "voip"
  ++ en "territory".

Definition ev_209 : list event :=
  st "territory" [("id", "TA"); ("countryCode", "290"); ("leadingDigits", "8"); ("internationalPrefix", "00")]
  ++ st "generalDesc" []
  ++ tx "nationalNumberPattern" "8\d{3}"
  ++ en "generalDesc"
  ++ st "fixedLine" []
  ++ em "possibleLengths" [("national", "4")]
  ++ tx "exampleNumber" "8999"
  ++ tx "nationalNumberPattern" "8\d{3}"
  ++ en "fixedLine"
  ++ en "territory".

Definition ev_210 : list event :=
  st "territory" [("id", "TC"); ("countryCode", "1"); ("leadingDigits", "649"); ("internationalPrefix", "011"); ("nationalPrefix", "1"); ("nationalPrefixForParsing", "([2-479]\d{6})$|1"); ("nationalPrefixTransformRule", "649$1"); ("mobileNumberPortableRegion", "true")]
  ++ st "generalDesc" []
  ++ tx "nationalNumberPattern" "(?:[58]\d\d|649|900)\d{7}"
  ++ en "generalDesc"
  ++ st "fixedLine" []
  ++ em "possibleLengths" [("national", "10"); ("localOnly", "7")]
  ++ tx "exampleNumber" "6497121234"
  ++ tx "nationalNumberPattern" "649(?:266|712|9(?:4\d|50))\d{4}"
  ++ en "fixedLine"
  ++ st "mobile" []
  ++ em "possibleLengths" [("national", "10"); ("localOnly", "7")]
  ++ tx "exampleNumber" "6492311234"
  ++ tx "nationalNumberPattern" "649(?:2(?:3[129]|4[1-79])|3\d\d|4[34][1-3])\d{4}"
  ++ en "mobile"
  ++ st "tollFree" []
  ++ em "possibleLengths" [("national", "10")]
  ++ tx "exampleNumber" "8002345678"
  ++ tx "nationalNumberPattern" "8(?:00|33|44|55|66|77|88)[2-9]\d{6}"
  ++ en "tollFree"
  ++ st "premiumRate" []
  ++ em "possibleLengths" [("national", "10")]
  ++ tx "exampleNumber" "9002345678"
  ++ tx "nationalNumberPattern" "900[2-9]\d{6}"
  ++ en "premiumRate"
  ++ st "personalNumber" []
  ++ em "possibleLengths" [("national", "10")]
  ++ tx "exampleNumber" "5002345678"
  ++ tx "nationalNumberPattern" "52(?:3(?:[2-46-9][02-9]\d|5(?:[02-46-9]\d|5[0-46-9]))|4(?:[2-478][02-9]\d|5(?:[034]\d|2[024-9]|5[0-46-9])|6(?:0[1-9]|[2-9]\d)|9(?:[05-9]\d|2[0-5]|49)))\d{4}|52[34][2-9]1[02-9]\d{4}|5(?:00|2[125-9]|3[23]|44|66|77|88)[2-9]\d{6}"
  ++ en "personalNumber"
  ++ st "voip" []
  ++ em "possibleLengths" [("national", "10"); ("localOnly", "7")]
  ++ tx "exampleNumber" "6497101234"
  ++ tx "nationalNumberPattern" "649(?:71[01]|966)\d{4}"
  ++ en "voip"
  ++ en "territory".

Definition ev_211 : list event :=
  st "territory" [("id", "TD"); ("countryCode", "235"); ("preferredInternationalPrefix", "00"); ("internationalPrefix", "00|16")]
  ++ st "availableFormats" []
  ++ st "numberFormat" [("pattern", "(\d{2})(\d{2})(\d{2})(\d{2})")]
  ++ tx "leadingDigits" "[236-9]"
  ++ tx "format" "$1 $2 $3 $4"
  ++ en "numberFormat"
  ++ en "availableFormats"
  ++ st "generalDesc" []
  ++ tx "nationalNumberPattern" "(?:22|[3689]\d|77)\d{6}"
  ++ en "generalDesc"
  ++ st "fixedLine" []
  ++ em "possibleLengths" [("national", "8")]
  ++ tx "exampleNumber" "22501234"
  ++ tx "nationalNumberPattern" "22(?:[37-9]0|5[0-5]|6[89])\d{4}"
  ++ en "fixedLine"
  ++ st "mobile" []
  ++ em "possibleLengths" [("national", "8")]
  ++ tx "exampleNumber" "63012345"
  ++ tx "nationalNumberPattern" "(?:3[01]|[69]\d|77|8[5-7])\d{6}"
  ++ en "mobile"
  ++ en "territory".

Definition ev_212 : list event :=
  st "territory" [("id", "TG"); ("countryCode", "228"); ("internationalPrefix", "00")]
  ++ st "availableFormats" []
  ++ st "numberFormat" [("pattern", "(\d{2})(\d{2})(\d{2})(\d{2})")]
  ++ tx "leadingDigits" "[279]"
  ++ tx "format" "$1 $2 $3 $4"
  ++ en "numberFormat"
  ++ en "availableFormats"
  ++ st "generalDesc" []
  ++ tx "nationalNumberPattern" "[279]\d{7}"
  ++ en "generalDesc"
  ++ st "fixedLine" []
  ++ em "possibleLengths" [("national", "8")]
  ++ tx "exampleNumber" "22212345"
  ++ tx "nationalNumberPattern" "2(?:2[2-7]|3[23]|4[45]|55|6[67]|77)\d{5}"
  ++ en "fixedLine"
  ++ st "mobile" []
  ++ em "possibleLengths" [("national", "8")]
  ++ tx "exampleNumber" "90112345"
  ++ tx "nationalNumberPattern" "(?:7[0-289]|9[0-36-9])\d{6}"
  ++ en "mobile"
  ++ en "territory".

Definition ev_213 : list event :=
  st "territory" [("id", "TH"); ("countryCode", "66"); ("internationalPrefix", "00[1-9]"); ("nationalPrefix", "0"); ("mobileNumberPortableRegion", "true")]
  ++ st "availableFormats" []
  ++ st "numberFormat" [("pattern", "(\d)(\d{3})(\d{4})"); ("nationalPrefixFormattingRule", "$NP$FG")]
  ++ tx "leadingDigits" "2"
  ++ tx "format" "$1 $2 $3"
  ++ en "numberFormat"
  ++ st "numberFormat" [("pattern", "(\d{2})(\d{3})(\d{3,4})"); ("nationalPrefixFormattingRule", "$NP$FG")]
  ++ tx "leadingDigits" "[13-9]"
  ++ tx "format" "$1 $2 $3"
  ++ en "numberFormat"
  ++ st "numberFormat" [("pattern", "(\d{4})(\d{3})(\d{3})")]
  ++ tx "leadingDigits" "1"
  ++ tx "format" "$1 $2 $3"
  ++ en "numberFormat"
  ++ en "availableFormats"
  ++ st "generalDesc" []
  ++ tx "nationalNumberPattern" "(?:001800|[2-57]|[689]\d)\d{7}|1\d{7,9}"
  ++ en "generalDesc"
  ++ st "fixedLine" []
  ++ em "possibleLengths" [("national", "8")]
  ++ tx "exampleNumber" "21234567"
  ++ tx "nationalNumberPattern" "(?:1[0689]|2\d|3[2-9]|4[2-5]|5[2-6]|7[3-7])\d{6}"
  ++ en "fixedLine"
  ++ st "mobile" []
  ++ em "possibleLengths" [("national", "9")]
  ++ tx "exampleNumber" "812345678"
  ++ tx "nationalNumberPattern" "(?:(?:14|[89]\d)\d\d|6(?:[1-6]\d\d|7(?:1[0-8]|2[4-7]|3[1-6])))\d{5}"
  ++ en "mobile"
  ++ st "tollFree" []
  ++ em "possibleLengths" [("national", "10,13")]
  ++ tx "exampleNumber" "1800123456"
  ++ tx "nationalNumberPattern" "(?:001800\d|1800)\d{6}"
  ++ en "tollFree"
  ++ st "premiumRate" []
  ++ em "possibleLengths" [("national", "10")]
  ++ tx "exampleNumber" "1900123456"
  ++ tx "nationalNumberPattern" "1900\d{6}"
  ++ en "premiumRate"
  ++ st "voip" []
  ++ em "possibleLengths" [("national", "9")]
  ++ tx "exampleNumber" "601234567"
  ++ tx "nationalNumberPattern" "6[08]\d{7}"
  ++ en "voip"
  ++ en "territory".

Definition ev_214 : list event :=
  st "territory" [("id", "TJ"); ("countryCode", "992"); ("preferredInternationalPrefix", "8~10"); ("internationalPrefix", "810")]
  ++ st "availableFormats" []
  ++ st "numberFormat" [("pattern", "(\d{6})(\d)(\d{2})")]
  ++ tx "leadingDigits" "331"
  ++ tx "leadingDigits" "3317"
  ++ tx "format" "$1 $2 $3"
  ++ en "numberFormat"
  ++ st "numberFormat" [("pattern", "(\d{3})(\d{2})(\d{4})")]
  ++ tx "leadingDigits" "44[02-479]|[34]7"
  ++ tx "format" "$1 $2 $3"
  ++ en "numberFormat"
  ++ st "numberFormat" [("pattern", "(\d{4})(\d)(\d{4})")]
  ++ tx "leadingDigits" "3(?:[1245]|3[12])"
  ++ tx "format" "$1 $2 $3"
  ++ en "numberFormat"
  ++ st "numberFormat" [("pattern", "(\d{2})(\d{3})(\d{4})")]
  ++ tx "leadingDigits" "\d"
  ++ tx "format" "$1 $2 $3"
  ++ en "numberFormat"
  ++ en "availableFormats"
  ++ st "generalDesc" []
  ++ tx "nationalNumberPattern" "(?:[0-57-9]\d|66)\d{7}"
  ++ en "generalDesc"
  ++ st "fixedLine" []
  ++ em "possibleLengths" [("national", "9"); ("localOnly", "3,[5-7]")]
  ++ tx "exampleNumber" "372123456"
  ++ tx "nationalNumberPattern" "(?:3(?:1[3-5]|2[245]|3[12]|4[24-7]|5[25]|72)|4(?:46|74|87))\d{6}"
  ++ en "fixedLine"
  ++ st "mobile" []
  ++ em "possibleLengths" [("national", "9")]
  ++ tx "exampleNumber" "917123456"
  ++ tx "nationalNumberPattern" "(?:33[03-9]|4(?:1[18]|4[02-479])|81[1-9])\d{6}|(?:[09]\d|1[0-27-9]|2[0-27]|3[08]|40|5[05]|66|7[0157-9]|8[07-9])\d{7}"
  ++ en "mobile"
  ++ en "territory".

Definition ev_215 : list event :=
  st "territory" [("id", "TK"); ("countryCode", "690"); ("internationalPrefix", "00")]
  ++ st "generalDesc" []
  ++ tx "nationalNumberPattern" "[2-47]\d{3,6}"
  ++ en "generalDesc"
  ++ st "fixedLine" []
  ++ em "possibleLengths" [("national", "[4-7]")]
  ++ tx "exampleNumber" "3101"
  ++ tx "nationalNumberPattern" "(?:2[2-4]|[34]\d)\d{2,5}"
  ++ en "fixedLine"
  ++ st "mobile" []
  ++ em "possibleLengths" [("national", "[4-7]")]
  ++ tx "exampleNumber" "7290"
  ++ tx "nationalNumberPattern" "7[2-4]\d{2,5}"
  ++ en "mobile"
  ++ en "territory".

Definition ev_216 : list event :=
  st "territory" [("id", "TL"); ("countryCode", "670"); ("internationalPrefix", "00")]
  ++ st "availableFormats" []
  ++ st "numberFormat" [("pattern", "(\d{3})(\d{4})")]
  ++ tx "leadingDigits" "[2-489]|70"
  ++ tx "format" "$1 $2"
  ++ en "numberFormat"
  ++ st "numberFormat" [("pattern", "(\d{4})(\d{4})")]
  ++ tx "leadingDigits" "7"
  ++ tx "format" "$1 $2"
  ++ en "numberFormat"
  ++ en "availableFormats"
  ++ st "generalDesc" []
  ++ tx "nationalNumberPattern" "7\d{7}|(?:[2-47]\d|[89]0)\d{5}"
  ++ en "generalDesc"
  ++ st "fixedLine" []
  ++ em "possibleLengths" [("national", "7")]
  ++ tx "exampleNumber" "2112345"
  ++ tx "nationalNumberPattern" "(?:2[1-5]|3[1-9]|4[1-4])\d{5}"
  ++ en "fixedLine"
  ++ st "mobile" []
  ++ em "possibleLengths" [("national", "8")]
  ++ tx "exampleNumber" "77212345"
  ++ tx "nationalNumberPattern" "7[2-8]\d{6}"
  ++ en "mobile"
  ++ st "tollFree" []
  ++ em "possibleLengths" [("national", "7")]
  ++ tx "exampleNumber" "8012345"
  ++ tx "nationalNumberPattern" "80\d{5}"
  ++ en "tollFree"
  ++ st "premiumRate" []
  ++ em "possibleLengths" [("national", "7")]
  ++ tx "exampleNumber" "9012345"
  ++ tx "nationalNumberPattern" "90\d{5}"
  ++ en "premiumRate"
  ++ st "personalNumber" []
  ++ em "possibleLengths" [("national", "7")]
  ++ tx "exampleNumber" "7012345"
  ++ tx "nationalNumberPattern" "70\d{5}"
  ++ en "personalNumber"
  ++ en "territory".

Definition ev_217 : list event :=
  st "territory" [("id", "TM"); ("countryCode", "993"); ("preferredInternationalPrefix", "8~10"); ("internationalPrefix", "810"); ("nationalPrefix", "8")]
  ++ st "availableFormats" []
  ++ st "numberFormat" [("pattern", "(\d{2})(\d{2})(\d{2})(\d{2})"); ("nationalPrefixFormattingRule", "($NP $FG)")]
  ++ tx "leadingDigits" "12"
  ++ tx "format" "$1 $2-$3-$4"
  ++ en "numberFormat"
  ++ st "numberFormat" [("pattern", "(\d{3})(\d)(\d{2})(\d{2})"); ("nationalPrefixFormattingRule", "($NP $FG)")]
  ++ tx "leadingDigits" "[1-5]"
  ++ tx "format" "$1 $2-$3-$4"
  ++ en "numberFormat"
  ++ st "numberFormat" [("pattern", "(\d{2})(\d{6})"); ("nationalPrefixFormattingRule", "$NP $FG")]
  ++ tx "leadingDigits" "[67]"
  ++ tx "format" "$1 $2"
  ++ en "numberFormat"
  ++ en "availableFormats"
  ++ st "generalDesc" []
  ++ tx "nationalNumberPattern" "(?:[1-6]\d|71)\d{6}"
  ++ en "generalDesc"
  ++ st "fixedLine" []
  ++ em "possibleLengths" [("national", "8")]
  ++ tx "exampleNumber" "12345678"
  ++ tx "nationalNumberPattern" "(?:1(?:2\d|3[1-9])|2(?:22|4[0-35-8])|3(?:22|4[03-9])|4(?:22|3[128]|4\d|6[15])|5(?:22|5[7-9]|6[014-689]))\d{5}"
  ++ en "fixedLine"
  ++ st "mobile" []
  ++ em "possibleLengths" [("national", "8")]
  ++ tx "exampleNumber" "66123456"
  ++ tx "nationalNumberPattern" "(?:6\d|71)\d{6}"
  ++ en "mobile"
  ++ en "territory".

Definition ev_218 : list event :=
  st "territory" [("id", "TN"); ("countryCode", "216"); ("internationalPrefix", "00")]
  ++ st "availableFormats" []
  ++ st "numberFormat" [("pattern", "(\d{2})(\d{3})(\d{3})")]
  ++ tx "leadingDigits" "[2-57-9]"
  ++ tx "format" "$1 $2 $3"
  ++ en "numberFormat"
  ++ en "availableFormats"
  ++ st "generalDesc" []
  ++ tx "nationalNumberPattern" "[2-57-9]\d{7}"
  ++ en "generalDesc"
  ++ st "fixedLine" []
  ++ em "possibleLengths" [("national", "8")]
  ++ tx "exampleNumber" "30010123"
  ++ tx "nationalNumberPattern" "81200\d{3}|(?:3[0-2]|7\d)\d{6}"
  ++ en "fixedLine"
  ++ st "mobile" []
  ++ em "possibleLengths" [("national", "8")]
  ++ tx "exampleNumber" "20123456"
  ++ tx "nationalNumberPattern" "3(?:001|[12]40)\d{4}|(?:(?:[259]\d|4[0-8])\d|3(?:1[1-35]|6[0-4]|91))\d{5}"
  ++ en "mobile"
  ++ st "tollFree" []
  ++ em "possibleLengths" [("national", "8")]
  ++ tx "exampleNumber" "80101234"
  ++ tx "nationalNumberPattern" "8010\d{4}"
  ++ en "tollFree"
  ++ st "premiumRate" []
  ++ em "possibleLengths" [("national", "8")]
  ++ tx "exampleNumber" "88123456"
  ++ tx "nationalNumberPattern" "88\d{6}"
  ++ en "premiumRate"
  ++ st "sharedCost" []
  ++ em "possibleLengths" [("national", "8")]
  ++ tx "exampleNumber" "81101234"
  ++ tx "nationalNumberPattern" "8[12]10\d{4}"
  ++ en "sharedCost"
  ++ en "territory".

Definition ev_219 : list event :=
  st "territory" [("id", "TO"); ("countryCode", "676"); ("internationalPrefix", "00")]
  ++ st "availableFormats" []
  ++ st "numberFormat" [("pattern", "(\d{2})(\d{3})")]
  ++ tx "leadingDigits" "[2-4]|50|6[09]|7[0-24-69]|8[05]"
  ++ tx "format" "$1-$2"
  ++ en "numberFormat"
  ++ st "numberFormat" [("pattern", "(\d{4})(\d{3})")]
  ++ tx "leadingDigits" "0"
  ++ tx "format" "$1 $2"
  ++ en "numberFormat"
  ++ st "numberFormat" [("pattern", "(\d{3})(\d{4})")]
  ++ tx "leadingDigits" "[5-9]"
  ++ tx "format" "$1 $2"
  ++ en "numberFormat"
  ++ en "availableFormats"
  ++ st "generalDesc" []
  ++ tx "nationalNumberPattern" "(?:0800|(?:[5-8]\d\d|999)\d)\d{3}|[2-8]\d{4}"
  ++ en "generalDesc"
  ++ st "fixedLine" []
  ++ em "possibleLengths" [("national", "5")]
  ++ tx "exampleNumber" "20123"
  ++ tx "nationalNumberPattern" "(?:2\d|3[0-8]|4[0-4]|50|6[09]|7[0-24-69]|8[05])\d{3}"
  ++ en "fixedLine"
  ++ st "mobile" []
  ++ em "possibleLengths" [("national", "7")]
  ++ tx "exampleNumber" "7715123"
  ++ tx "nationalNumberPattern" "(?:5(?:4[0-5]|5[4-6])|6(?:[09]\d|3[02]|8[15-9])|(?:7\d|8[46-9])\d|999)\d{4}"
  ++ en "mobile"
  ++ st "tollFree" []
  ++ em "possibleLengths" [("national", "7")]
  ++ tx "exampleNumber" "0800222"
  ++ tx "nationalNumberPattern" "0800\d{3}"
  ++ en "tollFree"
  ++ st "voip" []
  ++ em "possibleLengths" [("national", "7")]
  ++ tx "exampleNumber" "5510123"
  ++ tx "nationalNumberPattern" "55[0-37-9]\d{4}"
  ++ en "voip"
  ++ en "territory".

Definition ev_220 : list event :=
  st "territory" [("id", "TR"); ("countryCode", "90"); ("internationalPrefix", "00"); ("nationalPrefix", "0"); ("mobileNumberPortableRegion", "true")]
  ++ st "availableFormats" []
  ++ st "numberFormat" [("pattern", "(\d{3})(\d)(\d{3})"); ("nationalPrefixOptionalWhenFormatting", "true")]
  ++ tx "leadingDigits" "444"
  ++ tx "format" "$1 $2 $3"
  ++ tx "intlFormat" "NA"
  ++ en "numberFormat"
  ++ st "numberFormat" [("pattern", "(\d{3})(\d{3})(\d{4})"); ("nationalPrefixFormattingRule", "$NP$FG"); ("nationalPrefixOptionalWhenFormatting", "true")]
  ++ tx "leadingDigits" "512|8[01589]|90"
  ++ tx "format" "$1 $2 $3"
  ++ en "numberFormat"
  ++ st "numberFormat" [("pattern", "(\d{3})(\d{3})(\d{2})(\d{2})"); ("nationalPrefixFormattingRule", "$NP$FG"); ("nationalPrefixOptionalWhenFormatting", "true")]
  ++ tx "leadingDigits" "5[0-79]"
  ++ tx "format" "$1 $2 $3 $4"
  ++ en "numberFormat"
  ++ st "numberFormat" [("pattern", "(\d{3})(\d{3})(\d{2})(\d{2})"); ("nationalPrefixFormattingRule", "($NP$FG)"); ("nationalPrefixOptionalWhenFormatting", "true")]
  ++ tx "leadingDigits" "[24][1-8]|3[1-9]"
  ++ tx "format" "$1 $2 $3 $4"
  ++ en "numberFormat"
  ++ st "numberFormat" [("pattern", "(\d{3})(\d{3})(\d{6,7})"); ("nationalPrefixFormattingRule", "$NP$FG"); ("nationalPrefixOptionalWhenFormatting", "true")]
  ++ tx "leadingDigits" "80"
  ++ tx "format" "$1 $2 $3"
  ++ en "numberFormat"
  ++ en "availableFormats"
  ++ st "generalDesc" []
  ++ tx "nationalNumberPattern" "4\d{6}|8\d{11,12}|(?:[2-58]\d\d|900)\d{7}"
  ++ en "generalDesc"
  ++ st "noInternationalDialling" []
  ++ em "possibleLengths" [("national", "7,10")]
  ++ tx "nationalNumberPattern" "(?:444|811\d{3})\d{4}"
  ++ en "noInternationalDialling"
  ++ st "fixedLine" []
  ++ em "possibleLengths" [("national", "10")]
  ++ tx "exampleNumber" "2123456789"
  ++ tx "nationalNumberPattern" "(?:2(?:1[26]|[28][2468]|[3-5][268]|[67][246])|3(?:[13][28]|[24-6][2468]|[78][02468]|92)|4(?:[16][246]|[23578][2468]|4[26]))\d{7}"
  ++ en "fixedLine"
  ++ st "mobile" []
  ++ em "possibleLengths" [("national", "10")]
  ++ tx "exampleNumber" "5012345678"
  ++ tx "nationalNumberPattern" "561(?:011|61\d)\d{4}|5(?:[03-5]\d|1[06]|24|6[24]|7[245]|9[46])\d{7}"
  ++ en "mobile"
  ++ st "pager" []
  ++ em "possibleLengths" [("national", "10")]
  ++ tx "exampleNumber" "5123456789"
  ++ tx "nationalNumberPattern" "512\d{7}"
  ++ en "pager"
  ++ st "tollFree" []
  ++ em "possibleLengths" [("national", "10,12,13")]
  ++ tx "exampleNumber" "8001234567"
  ++ tx "nationalNumberPattern" "8(?:00\d{7}(?:\d{2,3})?|11\d{7})"
  ++ en "tollFree"
  ++ st "premiumRate" []
  ++ em "possibleLengths" [("national", "10")]
  ++ tx "exampleNumber" "9001234567"
  ++ tx "nationalNumberPattern" "(?:8[89]8|900)\d{7}"
  ++ en "premiumRate"
  ++ st "personalNumber" []
  ++ em "possibleLengths" [("national", "10")]
  ++ tx "exampleNumber" "5922121234"
  ++ tx "nationalNumberPattern" "592(?:21[12]|461)\d{4}"
  ++ en "personalNumber"
  ++ st "voip" []
  ++ em "possibleLengths" [("national", "10")]
  ++ tx "exampleNumber" "8500123456"
  ++ tx "nationalNumberPattern" "850\d{7}"
  ++ en "voip"
  ++ st "uan" []
  ++ em "possibleLengths" [("national", "7")]
  ++ tx "exampleNumber" "4441444"
  ++ tx "nationalNumberPattern" "444\d{4}"
  ++ en "uan"
  ++ en "territory".

Definition ev_221 : list event :=
  st "territory" [("id", "TT"); ("countryCode", "1"); ("leadingDigits", "868"); ("internationalPrefix", "011"); ("nationalPrefix", "1"); ("nationalPrefixForParsing", "([2-46-8]\d{6})$|1"); ("nationalPrefixTransformRule", "868$1"); ("mobileNumberPortableRegion", "true")]
  ++ st "generalDesc" []
  ++ tx "nationalNumberPattern" "(?:[58]\d\d|900)\d{7}"
  ++ en "generalDesc"
  ++ st "fixedLine" []
  ++ em "possibleLengths" [("national", "10"); ("localOnly", "7")]
  ++ tx "exampleNumber" "8682211234"
  ++ tx "nationalNumberPattern" "868(?:2(?:01|1[5-9]|[23]\d|4[0-2])|6(?:0[7-9]|1[02-8]|2[1-9]|[3-69]\d|7[0-79])|82[124])\d{4}"
  ++ en "fixedLine"
  ++ st "mobile" []
  ++ em "possibleLengths" [("national", "10"); ("localOnly", "7")]
  ++ tx "exampleNumber" "8682911234"
  ++ tx "nationalNumberPattern" "868(?:(?:2[5-9]|3\d)\d|4(?:3[0-6]|[6-9]\d)|6(?:20|78|8\d)|7(?:0[1-9]|1[02-9]|[2-9]\d))\d{4}"
  ++ en "mobile"
  ++ st "tollFree" []
  ++ em "possibleLengths" [("national", "10")]
  ++ tx "exampleNumber" "8002345678"
  ++ tx "nationalNumberPattern" "868800\d{4}|8(?:00|33|44|55|66|77|88)[2-9]\d{6}"
  ++ en "tollFree"
  ++ st "premiumRate" []
  ++ em "possibleLengths" [("national", "10")]
  ++ tx "exampleNumber" "9002345678"
  ++ tx "nationalNumberPattern" "900[2-9]\d{6}"
  ++ en "premiumRate"
  ++ st "personalNumber" []
  ++ em "possibleLengths" [("national", "10")]
  ++ tx "exampleNumber" "5002345678"
  ++ tx "nationalNumberPattern" "52(?:3(?:[2-46-9][02-9]\d|5(?:[02-46-9]\d|5[0-46-9]))|4(?:[2-478][02-9]\d|5(?:[034]\d|2[024-9]|5[0-46-9])|6(?:0[1-9]|[2-9]\d)|9(?:[05-9]\d|2[0-5]|49)))\d{4}|52[34][2-9]1[02-9]\d{4}|5(?:00|2[125-9]|3[23]|44|66|77|88)[2-9]\d{6}"
  ++ en "personalNumber"
  ++ st "voicemail" []
  ++ em "possibleLengths" [("national", "10"); ("localOnly", "7")]
  ++ tx "exampleNumber" "8686191234"
  ++ tx "nationalNumberPattern" "868619\d{4}"
  ++ en "voicemail"
  ++ en "territory".

Definition ev_222 : list event :=
  st "territory" [("id", "TV"); ("countryCode", "688"); ("internationalPrefix", "00")]
  ++ st "availableFormats" []
  ++ st "numberFormat" [("pattern", "(\d{2})(\d{3})")]
  ++ tx "leadingDigits" "2"
  ++ tx "format" "$1 $2"
  ++ en "numberFormat"
  ++ st "numberFormat" [("pattern", "(\d{2})(\d{4})")]
  ++ tx "leadingDigits" "90"
  ++ tx "format" "$1 $2"
  ++ en "numberFormat"
  ++ st "numberFormat" [("pattern", "(\d{2})(\d{5})")]
  ++ tx "leadingDigits" "7"
  ++ tx "format" "$1 $2"
  ++ en "numberFormat"
  ++ en "availableFormats"
  ++ st "generalDesc" []
  ++ tx "nationalNumberPattern" "(?:2|7\d\d|90)\d{4}"
  ++ en "generalDesc"
  ++ st "fixedLine" []
  ++ em "possibleLengths" [("national", "5")]
  ++ tx "exampleNumber" "20123"
  ++ tx "nationalNumberPattern" "2[02-9]\d{3}"
  ++ en "fixedLine"
  ++ st "mobile" []
  ++ em "possibleLengths" [("national", "6,7")]
  ++ tx "exampleNumber" "901234"
  ++ tx "nationalNumberPattern" "(?:7[01]\d|90)\d{4}"
  ++ en "mobile"
  ++ en "territory".

Definition ev_223 : list event :=
  st "territory" [("id", "TW"); ("countryCode", "886"); ("internationalPrefix", "0(?:0[25-79]|19)"); ("nationalPrefix", "0"); ("preferredExtnPrefix", "#"); ("mobileNumberPortableRegion", "true")]
  ++ st "availableFormats" []
  ++ st "numberFormat" [("pattern", "(\d{2})(\d)(\d{4})"); ("nationalPrefixFormattingRule", "$NP$FG")]
  ++ tx "leadingDigits" "202"
  ++ tx "format" "$1 $2 $3"
  ++ en "numberFormat"
  ++ st "numberFormat" [("pattern", "(\d{3})(\d{5})"); ("nationalPrefixFormattingRule", "$NP$FG")]
  ++ tx "leadingDigits" "826"
  ++ tx "format" "$1 $2"
  ++ en "numberFormat"
  ++ st "numberFormat" [("pattern", "(\d{3})(\d{2})(\d{3})"); ("nationalPrefixFormattingRule", "$NP$FG")]
  ++ tx "leadingDigits" "83"
  ++ tx "format" "$1 $2 $3"
  ++ en "numberFormat"
  ++ st "numberFormat" [("pattern", "(\d{2})(\d{2})(\d{4})"); ("nationalPrefixFormattingRule", "$NP$FG")]
  ++ tx "leadingDigits" "82"
  ++ tx "format" "$1 $2 $3"
  ++ en "numberFormat"
  ++ st "numberFormat" [("pattern", "(\d{2})(\d{3})(\d{3,4})"); ("nationalPrefixFormattingRule", "$NP$FG")]
  ++ tx "leadingDigits" "[25]0|37|49|8[09]"
  ++ tx "format" "$1 $2 $3"
  ++ en "numberFormat"
  ++ st "numberFormat" [("pattern", "(\d)(\d{3,4})(\d{4})"); ("nationalPrefixFormattingRule", "$NP$FG")]
  ++ tx "leadingDigits" "[23568]|4(?:0[02-48]|[1-478])|7[1-9]"
  ++ tx "leadingDigits" "[23568]|4(?:0[2-48]|[1-478])|(?:400|7)[1-9]"
  ++ tx "format" "$1 $2 $3"
  ++ en "numberFormat"
  ++ st "numberFormat" [("pattern", "(\d{3})(\d{3})(\d{3})"); ("nationalPrefixFormattingRule", "$NP$FG")]
  ++ tx "leadingDigits" "[49]"
  ++ tx "format" "$1 $2 $3"
  ++ en "numberFormat"
  ++ st "numberFormat" [("pattern", "(\d{2})(\d{4})(\d{4,5})"); ("nationalPrefixFormattingRule", "$NP$FG")]
  ++ tx "leadingDigits" "7"
  ++ tx "format" "$1 $2 $3"
  ++ en "numberFormat"
  ++ en "availableFormats"
  ++ st "generalDesc" []
  ++ tx "nationalNumberPattern" "[2-689]\d{8}|7\d{9,10}|[2-8]\d{7}|2\d{6}"
  ++ en "generalDesc"
  ++ st "fixedLine" []
  ++ em "possibleLengths" [("national", "8,9")]
  ++ tx "exampleNumber" "221234567"
  ++ tx "nationalNumberPattern" "(?:2[2-8]\d|370|55[01]|7[1-9])\d{6}|4(?:(?:0(?:0[1-9]|[2-48]\d)|1[023]\d)\d{4,5}|(?:[239]\d\d|4(?:0[56]|12|49))\d{5})|6(?:[01]\d{7}|4(?:0[56]|12|24|4[09])\d{4,5})|8(?:(?:2(?:3\d|4[0-269]|[578]0|66)|36[24-9]|90\d\d)\d{4}|4(?:0[56]|12|24|4[09])\d{4,5})|(?:2(?:2(?:0\d\d|4(?:0[68]|[249]0|3[0-467]|5[0-25-9]|6[0235689]))|(?:3(?:[09]\d|1[0-4])|(?:4\d|5[0-49]|6[0-29]|7[0-5])\d)\d)|(?:(?:3[2-9]|5[2-8]|6[0-35-79]|8[7-9])\d\d|4(?:2(?:[089]\d|7[1-9])|(?:3[0-4]|[78]\d|9[01])\d))\d)\d{3}"
  ++ en "fixedLine"
  ++ st "mobile" []
  ++ em "possibleLengths" [("national", "9")]
  ++ tx "exampleNumber" "912345678"
  ++ tx "nationalNumberPattern" "(?:40001[0-2]|9[0-8]\d{4})\d{3}"
  ++ en "mobile"
  ++ st "tollFree" []
  ++ em "possibleLengths" [("national", "8,9")]
  ++ tx "exampleNumber" "800123456"
  ++ tx "nationalNumberPattern" "80[0-79]\d{6}|800\d{5}"
  ++ en "tollFree"
  ++ st "premiumRate" []
  ++ em "possibleLengths" [("national", "7,9")]
  ++ tx "exampleNumber" "203123456"
  ++ tx "nationalNumberPattern" "20(?:[013-9]\d\d|2)\d{4}"
  ++ en "premiumRate"
  ++ st "personalNumber" []
  ++ em "possibleLengths" [("national", "9")]
  ++ tx "exampleNumber" "990123456"
  ++ tx "nationalNumberPattern" "99\d{7}"
  ++ en "personalNumber"
  ++ st "voip" []
  ++ em "possibleLengths" [("national", "10,11")]
  ++ tx "exampleNumber" "7012345678"
  ++ tx "nationalNumberPattern" "7010(?:[0-2679]\d|3[0-7]|8[0-5])\d{5}|70\d{8}"
  ++ en "voip"
  ++ st "uan" []
  ++ em "possibleLengths" [("national", "9")]
  ++ tx "exampleNumber" "500123456"
  ++ tx "nationalNumberPattern" "50[0-46-9]\d{6}"
  ++ en "uan"
  ++ en "territory".

Definition ev_224 : list event :=
  st "territory" [("id", "TZ"); ("countryCode", "255"); ("internationalPrefix", "00[056]"); ("nationalPrefix", "0")]
  ++ st "availableFormats" []
  ++ st "numberFormat" [("pattern", "(\d{3})(\d{2})(\d{4})"); ("nationalPrefixFormattingRule", "$NP$FG")]
  ++ tx "leadingDigits" "[89]"
  ++ tx "format" "$1 $2 $3"
  ++ en "numberFormat"
  ++ st "numberFormat" [("pattern", "(\d{2})(\d{3})(\d{4})"); ("nationalPrefixFormattingRule", "$NP$FG")]
  ++ tx "leadingDigits" "[24]"
  ++ tx "format" "$1 $2 $3"
  ++ en "numberFormat"
  ++ st "numberFormat" [("pattern", "(\d{2})(\d{7})")]
  ++ tx "leadingDigits" "5"
  ++ tx "format" "$1 $2"
  ++ en "numberFormat"
  ++ st "numberFormat" [("pattern", "(\d{3})(\d{3})(\d{3})"); ("nationalPrefixFormattingRule", "$NP$FG")]
  ++ tx "leadingDigits" "[67]"
  ++ tx "format" "$1 $2 $3"
  ++ en "numberFormat"
  ++ en "availableFormats"
  ++ st "generalDesc" []
  ++ tx "nationalNumberPattern" "(?:[25-8]\d|41|90)\d{7}"
  ++ en "generalDesc"
  ++ st "noInternationalDialling" []
  ++ em "possibleLengths" [("national", "9")]
  ++ tx "nationalNumberPattern" "(?:8(?:[04]0|6[01])|90\d)\d{6}"
  ++ en "noInternationalDialling"
  ++ st "fixedLine" []
  ++ em "possibleLengths" [("national", "9")]
  ++ tx "exampleNumber" "222345678"
  ++ tx "nationalNumberPattern" "2[2-8]\d{7}"
  ++ en "fixedLine"
  ++ st "mobile" []
  ++ em "possibleLengths" [("national", "9")]
  ++ tx "exampleNumber" "621234567"
  ++ tx "nationalNumberPattern" "(?:6[1-35-9]|7[013-9])\d{7}"
  ++ en "mobile"
  ++ st "tollFree" []
  ++ em "possibleLengths" [("national", "9")]
  ++ tx "exampleNumber" "800123456"
  ++ tx "nationalNumberPattern" "80[08]\d{6}"
  ++ en "tollFree"
  ++ st "premiumRate" []
  ++ em "possibleLengths" [("national", "9")]
  ++ tx "exampleNumber" "900123456"
  ++ tx "nationalNumberPattern" "90\d{7}"
  ++ en "premiumRate"
  ++ st "sharedCost" []
  ++ em "possibleLengths" [("national", "9")]
  ++ tx "exampleNumber" "840123456"
  ++ tx "nationalNumberPattern" "8(?:40|6[01])\d{6}"
  ++ en "sharedCost"
  ++ st "voip" []
  ++ em "possibleLengths" [("national", "9")]
  ++ tx "exampleNumber" "412345678"
  ++ tx "nationalNumberPattern" "41\d{7}"
  ++ en "voip"
  ++ en "territory".

Definition ev_225 : list event :=
  st "territory" [("id", "UA"); ("countryCode", "380"); ("preferredInternationalPrefix", "0~0"); ("internationalPrefix", "00"); ("nationalPrefix", "0")]
  ++ st "availableFormats" []
  ++ st "numberFormat" [("pattern", "(\d{3})(\d{3})(\d{3})"); ("nationalPrefixFormattingRule", "$NP$FG")]
  ++ tx "leadingDigits" "6[12][29]|(?:3[1-8]|4[136-8]|5[12457]|6[49])2|(?:56|65)[24]"
  ++ tx "leadingDigits" "6[12][29]|(?:35|4[1378]|5[12457]|6[49])2|(?:56|65)[24]|(?:3[1-46-8]|46)2[013-9]"
  ++ tx "format" "$1 $2 $3"
  ++ en "numberFormat"
  ++ st "numberFormat" [("pattern", "(\d{4})(\d{5})"); ("nationalPrefixFormattingRule", "$NP$FG")]
  ++ tx "leadingDigits" "3[1-8]|4(?:[1367]|[45][6-9]|8[4-6])|5(?:[1-5]|6[0135689]|7[4-6])|6(?:[12][3-7]|[459])"
  ++ tx "leadingDigits" "3[1-8]|4(?:[1367]|[45][6-9]|8[4-6])|5(?:[1-5]|6(?:[015689]|3[02389])|7[4-6])|6(?:[12][3-7]|[459])"
  ++ tx "format" "$1 $2"
  ++ en "numberFormat"
  ++ st "numberFormat" [("pattern", "(\d{2})(\d{3})(\d{4})"); ("nationalPrefixFormattingRule", "$NP$FG")]
  ++ tx "leadingDigits" "[3-7]|89|9[1-9]"
  ++ tx "format" "$1 $2 $3"
  ++ en "numberFormat"
  ++ st "numberFormat" [("pattern", "(\d{3})(\d{3})(\d{3,4})"); ("nationalPrefixFormattingRule", "$NP$FG")]
  ++ tx "leadingDigits" "[89]"
  ++ tx "format" "$1 $2 $3"
  ++ en "numberFormat"
  ++ en "availableFormats"
  ++ st "generalDesc" []
  ++ tx "nationalNumberPattern" "[89]\d{9}|[3-9]\d{8}"
  ++ en "generalDesc"
  ++ st "fixedLine" []
  ++ em "possibleLengths" [("national", "9"); ("localOnly", "[5-7]")]
  ++ tx "exampleNumber" "311234567"
  ++ tx "nationalNumberPattern" "(?:3[1-8]|4[13-8]|5[1-7]|6[12459])\d{7}"
  ++ en "fixedLine"
  ++ st "mobile" []
  ++ em "possibleLengths" [("national", "9")]
  ++ tx "exampleNumber" "501234567"
  ++ tx "nationalNumberPattern" "790\d{6}|(?:39|50|6[36-8]|7[1-357]|9[1-9])\d{7}"
  ++ en "mobile"
  ++ st "tollFree" []
  ++ em "possibleLengths" [("national", "9,10")]
  ++ tx "exampleNumber" "800123456"
  ++ tx "nationalNumberPattern" "800[1-8]\d{5,6}"
  ++ en "tollFree"
  ++ st "premiumRate" []
  ++ em "possibleLengths" [("national", "9,10")]
  ++ tx "exampleNumber" "900212345"
  ++ tx "nationalNumberPattern" "900[239]\d{5,6}"
  ++ en "premiumRate"
  ++ st "voip" []
  ++ em "possibleLengths" [("national", "9")]
  ++ tx "exampleNumber" "891234567"
  ++ tx "nationalNumberPattern" "89[1-579]\d{6}"
  ++ en "voip"
  ++ en "territory".

Definition ev_226 : list event :=
  st "territory" [("id", "UG"); ("countryCode", "256"); ("internationalPrefix", "00[057]"); ("nationalPrefix", "0")]
  ++ st "availableFormats" []
  ++ st "numberFormat" [("pattern", "(\d{4})(\d{5})"); ("nationalPrefixFormattingRule", "$NP$FG")]
  ++ tx "leadingDigits" "202"
  ++ tx "leadingDigits" "2024"
  ++ tx "format" "$1 $2"
  ++ en "numberFormat"
  ++ st "numberFormat" [("pattern", "(\d{3})(\d{6})"); ("nationalPrefixFormattingRule", "$NP$FG")]
  ++ tx "leadingDigits" "[27-9]|4(?:6[45]|[7-9])"
  ++ tx "format" "$1 $2"
  ++ en "numberFormat"
  ++ st "numberFormat" [("pattern", "(\d{2})(\d{7})"); ("nationalPrefixFormattingRule", "$NP$FG")]
  ++ tx "leadingDigits" "[34]"
  ++ tx "format" "$1 $2"
  ++ en "numberFormat"
  ++ en "availableFormats"
  ++ st "generalDesc" []
  ++ tx "nationalNumberPattern" "800\d{6}|(?:[29]0|[347]\d)\d{7}"
  ++ en "generalDesc"
  ++ st "fixedLine" []
  ++ em "possibleLengths" [("national", "9"); ("localOnly", "[5-7]")]
  ++ tx "exampleNumber" "312345678"
  ++ tx "nationalNumberPattern" "20(?:(?:240|30[67])\d|6(?:00[0-2]|30[0-4]))\d{3}|(?:20(?:[017]\d|2[5-9]|3[1-4]|5[0-4]|6[15-9])|[34]\d{3})\d{5}"
  ++ en "fixedLine"
  ++ st "mobile" []
  ++ em "possibleLengths" [("national", "9")]
  ++ tx "exampleNumber" "712345678"
  ++ tx "nationalNumberPattern" "7280\d{5}|7(?:[014-8]\d|2[01467]|3[016]|9[0-589])\d{6}"
  ++ en "mobile"
  ++ st "tollFree" []
  ++ em "possibleLengths" [("national", "9")]
  ++ tx "exampleNumber" "800123456"
  ++ tx "nationalNumberPattern" "800[1-3]\d{5}"
  ++ en "tollFree"
  ++ st "premiumRate" []
  ++ em "possibleLengths" [("national", "9")]
  ++ tx "exampleNumber" "901123456"
  ++ tx "nationalNumberPattern" "90[1-3]\d{6}"
  ++ en "premiumRate"
  ++ en "territory".

Definition ev_227 : list event :=
  st "territory" [("id", "US"); ("mainCountryForCode", "true"); ("countryCode", "1"); ("internationalPrefix", "011"); ("nationalPrefix", "1"); ("mobileNumberPortableRegion", "true")]
  ++ st "availableFormats" []
  ++ st "numberFormat" [("pattern", "(\d{3})(\d{4})"); ("nationalPrefixOptionalWhenFormatting", "true")]
  ++ tx "leadingDigits" "310"
  ++ tx "format" "$1-$2"
  ++ en "numberFormat"
  ++ st "numberFormat" [("pattern", "(\d{3})(\d{4})")]
  ++ tx "leadingDigits" "[24-9]|3(?:[02-9]|1[1-9])"
  ++ tx "format" "$1-$2"
  ++ tx "intlFormat" "NA"
  ++ en "numberFormat"
  ++ st "numberFormat" [("pattern", "(\d{3})(\d{3})(\d{4})"); ("nationalPrefixOptionalWhenFormatting", "true")]
  ++ tx "leadingDigits" "[2-9]"
  ++ tx "format" "($1) $2-$3"
  ++ tx "intlFormat" "$1-$2-$3"
  ++ en "numberFormat"
  ++ en "availableFormats"
  ++ st "generalDesc" []
  ++ tx "nationalNumberPattern" "[2-9]\d{9}|3\d{6}"
  ++ en "generalDesc"
  ++ st "fixedLine" []
  ++ em "possibleLengths" [("national", "10"); ("localOnly", "7")]
  ++ tx "exampleNumber" "2015550123"
  ++ tx "nationalNumberPattern" "(?:274[27]|(?:472|983)[2-47-9])\d{6}|(?:2(?:0[1-35-9]|1[02-9]|2[03-57-9]|3[1459]|4[08]|5[1-46]|6[0279]|7[0269]|8[13])|3(?:0[1-57-9]|1[02-9]|2[013-79]|3[0-24679]|4[167]|5[0-3]|6[01349]|8[056])|4(?:0[124-9]|1[02-579]|2[3-5]|3[0245]|4[023578]|58|6[349]|7[0589]|8[04])|5(?:0[1-57-9]|1[0235-8]|20|3[0149]|4[01]|5[179]|6[1-47]|7[0-5]|8[0256])|6(?:0[1-35-9]|1[024-9]|2[03689]|3[016]|4[0156]|5[01679]|6[0-279]|78|8[0-269])|7(?:0[1-46-8]|1[2-9]|2[04-8]|3[0-2478]|4[0378]|5[47]|6[02359]|7[0-59]|8[156])|8(?:0[1-68]|1[02-8]|2[0168]|3[0-2589]|4[03578]|5[046-9]|6[02-5]|7[028])|9(?:0[1346-9]|1[02-9]|2[0589]|3[0146-8]|4[01357-9]|5[12469]|7[0-3589]|8[04-69]))[2-9]\d{6}"
  ++ en "fixedLine"
  ++ st "mobile" []
  ++ em "possibleLengths" [("national", "10"); ("localOnly", "7")]
  ++ tx "exampleNumber" "2015550123"
  ++ tx "nationalNumberPattern" "(?:274[27]|(?:472|983)[2-47-9])\d{6}|(?:2(?:0[1-35-9]|1[02-9]|2[03-57-9]|3[1459]|4[08]|5[1-46]|6[0279]|7[0269]|8[13])|3(?:0[1-57-9]|1[02-9]|2[013-79]|3[0-24679]|4[167]|5[0-3]|6[01349]|8[056])|4(?:0[124-9]|1[02-579]|2[3-5]|3[0245]|4[023578]|58|6[349]|7[0589]|8[04])|5(?:0[1-57-9]|1[0235-8]|20|3[0149]|4[01]|5[179]|6[1-47]|7[0-5]|8[0256])|6(?:0[1-35-9]|1[024-9]|2[03689]|3[016]|4[0156]|5[01679]|6[0-279]|78|8[0-269])|7(?:0[1-46-8]|1[2-9]|2[04-8]|3[0-2478]|4[0378]|5[47]|6[02359]|7[0-59]|8[156])|8(?:0[1-68]|1[02-8]|2[0168]|3[0-2589]|4[03578]|5[046-9]|6[02-5]|7[028])|9(?:0[1346-9]|1[02-9]|2[0589]|3[0146-8]|4[01357-9]|5[12469]|7[0-3589]|8[04-69]))[2-9]\d{6}"
  ++ en "mobile"
  ++ st "tollFree" []
  ++ em "possibleLengths" [("national", "10")]
  ++ tx "exampleNumber" "8002345678"
  ++ tx "nationalNumberPattern" "8(?:00|33|44|55|66|77|88)[2-9]\d{6}"
  ++ en "tollFree"
  ++ st "premiumRate" []
  ++ em "possibleLengths" [("national", "10")]
  ++ tx "exampleNumber" "9002345678"
  ++ tx "nationalNumberPattern" "900[2-9]\d{6}"
  ++ en "premiumRate"
  ++ st "personalNumber" []
  ++ em "possibleLengths" [("national", "10")]
  ++ tx "exampleNumber" "5002345678"
  ++ tx "nationalNumberPattern" "52(?:3(?:[2-46-9][02-9]\d|5(?:[02-46-9]\d|5[0-46-9]))|4(?:[2-478][02-9]\d|5(?:[034]\d|2[024-9]|5[0-46-9])|6(?:0[1-9]|[2-9]\d)|9(?:[05-9]\d|2[0-5]|49)))\d{4}|52[34][2-9]1[02-9]\d{4}|5(?:00|2[125-9]|3[23]|44|66|77|88)[2-9]\d{6}"
  ++ en "personalNumber"
  ++ en "territory".

Definition ev_228 : list event :=
  st "territory" [("id", "UY"); ("countryCode", "598"); ("preferredInternationalPrefix", "00"); ("internationalPrefix", "0(?:0|1[3-9]\d)"); ("nationalPrefix", "0"); ("preferredExtnPrefix", " int. ")]
  ++ st "availableFormats" []
  ++ st "numberFormat" [("pattern", "(\d{4,5})")]
  ++ tx "leadingDigits" "21"
  ++ tx "format" "$1"
  ++ en "numberFormat"
  ++ st "numberFormat" [("pattern", "(\d{3})(\d{3,4})")]
  ++ tx "leadingDigits" "0"
  ++ tx "format" "$1 $2"
  ++ en "numberFormat"
  ++ st "numberFormat" [("pattern", "(\d{3})(\d{4})"); ("nationalPrefixFormattingRule", "$NP$FG")]
  ++ tx "leadingDigits" "[49]0|8"
  ++ tx "format" "$1 $2"
  ++ en "numberFormat"
  ++ st "numberFormat" [("pattern", "(\d{2})(\d{3})(\d{3})"); ("nationalPrefixFormattingRule", "$NP$FG")]
  ++ tx "leadingDigits" "9"
  ++ tx "format" "$1 $2 $3"
  ++ en "numberFormat"
  ++ st "numberFormat" [("pattern", "(\d{4})(\d{4})")]
  ++ tx "leadingDigits" "[124]"
  ++ tx "format" "$1 $2"
  ++ en "numberFormat"
  ++ st "numberFormat" [("pattern", "(\d{3})(\d{3})(\d{2,4})")]
  ++ tx "leadingDigits" "0"
  ++ tx "format" "$1 $2 $3"
  ++ en "numberFormat"
  ++ st "numberFormat" [("pattern", "(\d{3})(\d{3})(\d{3})(\d{2,4})")]
  ++ tx "leadingDigits" "0"
  ++ tx "format" "$1 $2 $3 $4"
  ++ en "numberFormat"
  ++ en "availableFormats"
  ++ st "generalDesc" []
  ++ tx "nationalNumberPattern" "0004\d{2,9}|[1249]\d{7}|2\d{3,4}|(?:[49]\d|80)\d{5}"
  ++ en "generalDesc"
  ++ st "fixedLine" []
  ++ em "possibleLengths" [("national", "8"); ("localOnly", "7")]
  ++ tx "exampleNumber" "21231234"
  ++ tx "nationalNumberPattern" "(?:1(?:770|9(?:20|[89]7))|(?:2\d|4[2-7])\d\d)\d{4}"
  ++ en "fixedLine"
  ++ st "mobile" []
  ++ em "possibleLengths" [("national", "8")]
  ++ tx "exampleNumber" "94231234"
  ++ tx "nationalNumberPattern" "9[1-9]\d{6}"
  ++ en "mobile"
  ++ st "tollFree" []
  ++ em "possibleLengths" [("national", "[6-13]")]
  ++ tx "exampleNumber" "8001234"
  ++ tx "nationalNumberPattern" "0004\d{2,9}|(?:405|80[05])\d{4}"
  ++ en "tollFree"
  ++ st "premiumRate" []
  ++ em "possibleLengths" [("national", "7")]
  ++ tx "exampleNumber" "9001234"
  ++ tx "nationalNumberPattern" "90[0-8]\d{4}"
  ++ en "premiumRate"
  ++ st "uan" []
  ++ em "possibleLengths" [("national", "4,5")]
  ++ tx "exampleNumber" "21123"
  ++ tx "nationalNumberPattern" "21\d{2,3}"
  ++ en "uan"
  ++ en "territory".

Definition ev_229 : list event :=
  st "territory" [("id", "UZ"); ("countryCode", "998"); ("internationalPrefix", "00")]
  ++ st "availableFormats" []
  ++ st "numberFormat" [("pattern", "(\d{2})(\d{3})(\d{2})(\d{2})")]
  ++ tx "leadingDigits" "[235-9]"
  ++ tx "format" "$1 $2 $3 $4"
  ++ en "numberFormat"
  ++ en "availableFormats"
  ++ st "generalDesc" []
  ++ tx "nationalNumberPattern" "(?:20|33|[5-9]\d)\d{7}"
  ++ en "generalDesc"
  ++ st "fixedLine" []
  ++ em "possibleLengths" [("national", "9")]
  ++ tx "exampleNumber" "669050123"
  ++ tx "nationalNumberPattern" "(?:55\d\d|6(?:1(?:22|3[124]|4[1-4]|5[1-3578]|64)|2(?:22|3[0-57-9]|41)|5(?:22|3[3-7]|5[024-8])|[69]\d\d|7(?:[23]\d|7[69]))|7(?:0(?:5[4-9]|6[0146]|7[124-6]|9[135-8])|[168]\d\d|2(?:22|3[13-57-9]|4[1-3579]|5[14])|3(?:2\d|3[1578]|4[1-35-7]|5[1-57]|61)|4(?:2\d|3[1-579]|7[1-79])|5(?:22|5[1-9]|6[1457])|9(?:22|5[1-9])))\d{5}"
  ++ en "fixedLine"
  ++ st "mobile" []
  ++ em "possibleLengths" [("national", "9")]
  ++ tx "exampleNumber" "912345678"
  ++ tx "nationalNumberPattern" "(?:(?:[25]0|33|8[078]|9[0-57-9])\d{3}|6(?:1(?:2(?:2[01]|98)|35[0-4]|50\d|61[23]|7(?:[01][017]|4\d|55|9[5-9]))|2(?:(?:11|7\d)\d|2(?:[12]1|9[01379])|5(?:[126]\d|3[0-4]))|5(?:19[01]|2(?:27|9[26])|(?:30|59|7\d)\d)|6(?:2(?:1[5-9]|2[0367]|38|41|52|60)|(?:3[79]|9[0-3])\d|4(?:56|83)|7(?:[07]\d|1[017]|3[07]|4[047]|5[057]|67|8[0178]|9[79]))|7(?:2(?:24|3[237]|4[5-9]|7[15-8])|5(?:7[12]|8[0589])|7(?:0\d|[39][07])|9(?:0\d|7[079])))|7(?:[07]\d{3}|2(?:2(?:2[79]|95)|3(?:2[5-9]|6[0-6])|57\d|7(?:0\d|1[17]|2[27]|3[37]|44|5[057]|66|88))|3(?:2(?:1[0-6]|21|3[469]|7[159])|(?:33|9[4-6])\d|5(?:0[0-4]|5[579]|9\d)|7(?:[0-3579]\d|4[0467]|6[67]|8[078]))|4(?:2(?:29|5[0257]|6[0-7]|7[1-57])|5(?:1[0-4]|8\d|9[5-9])|7(?:0\d|1[024589]|2[0-27]|3[0137]|[46][07]|5[01]|7[5-9]|9[079])|9(?:7[015-9]|[89]\d))|5(?:112|2(?:0\d|2[29]|[49]4)|3[1568]\d|52[6-9]|7(?:0[01578]|1[017]|[23]7|4[047]|[5-7]\d|8[78]|9[079]))|9(?:22[128]|3(?:2[0-4]|7\d)|57[02569]|7(?:2[05-9]|3[37]|4\d|60|7[2579]|87|9[07]))))\d{4}"
  ++ en "mobile"
  ++ en "territory".

Definition ev_230 : list event :=
  st "territory" [("id", "VA"); ("countryCode", "39"); ("leadingDigits", "06698"); ("internationalPrefix", "00"); ("mobileNumberPortableRegion", "true")]
  ++ st "generalDesc" []
  ++ tx "nationalNumberPattern" "0\d{5,10}|3[0-8]\d{7,10}|55\d{8}|8\d{5}(?:\d{2,4})?|(?:1\d|39)\d{7,8}"
  ++ en "generalDesc"
  ++ st "fixedLine" []
  ++ em "possibleLengths" [("national", "[6-11]")]
  ++ tx "exampleNumber" "0669812345"
  ++ tx "nationalNumberPattern" "06698\d{1,6}"
  ++ en "fixedLine"
  ++ st "mobile" []
  ++ em "possibleLengths" [("national", "9,10")]
  ++ tx "exampleNumber" "3123456789"
  ++ tx "nationalNumberPattern" "3[1-9]\d{8}|3[2-9]\d{7}"
  ++ en "mobile"
  ++ st "tollFree" []
  ++ em "possibleLengths" [("national", "6,9")]
  ++ tx "exampleNumber" "800123456"
  ++ tx "nationalNumberPattern" "80(?:0\d{3}|3)\d{3}"
  ++ en "tollFree"
  ++ st "premiumRate" []
  ++ em "possibleLengths" [("national", "6,[8-10]")]
  ++ tx "exampleNumber" "899123456"
  ++ tx "nationalNumberPattern" "(?:0878\d{3}|89(?:2\d|3[04]|4(?:[0-4]|[5-9]\d\d)|5[0-4]))\d\d|(?:1(?:44|6[346])|89(?:38|5[5-9]|9))\d{6}"
  ++ en "premiumRate"
  ++ st "sharedCost" []
  ++ em "possibleLengths" [("national", "6,9")]
  ++ tx "exampleNumber" "848123456"
  ++ tx "nationalNumberPattern" "84(?:[08]\d{3}|[17])\d{3}"
  ++ en "sharedCost"
  ++ st "personalNumber" []
  ++ em "possibleLengths" [("national", "9,10")]
  ++ tx "exampleNumber" "1781234567"
  ++ tx "nationalNumberPattern" "1(?:78\d|99)\d{6}"
  ++ en "personalNumber"
  ++ st "voip" []
  ++ em "possibleLengths" [("national", "10")]
  ++ tx "exampleNumber" "5512345678"
  ++ tx "nationalNumberPattern" "55\d{8}"
  ++ en "voip"
  ++ st "voicemail" []
  ++ em "possibleLengths" [("national", "11,12")]
  ++ tx "exampleNumber" "33101234501"
  ++ tx "nationalNumberPattern" "3[2-8]\d{9,10}"
  ++ en "voicemail"
  ++ en "territory".

Definition ev_231 : list event :=
  st "territory" [("id", "VC"); ("countryCode", "1"); ("leadingDigits", "784"); ("internationalPrefix", "011"); ("nationalPrefix", "1"); ("nationalPrefixForParsing", "([2-7]\d{6})$|1"); ("nationalPrefixTransformRule", "784$1"); ("mobileNumberPortableRegion", "true")]
  ++ st "generalDesc" []
  ++ tx "nationalNumberPattern" "(?:[58]\d\d|784|900)\d{7}"
  ++ en "generalDesc"
  ++ st "fixedLine" []
  ++ em "possibleLengths" [("national", "10"); ("localOnly", "7")]
  ++ tx "exampleNumber" "7842661234"
  ++ tx "nationalNumberPattern" "784(?:266|3(?:6[6-9]|7\d|8[0-6])|4(?:38|5[0-36-8]|8[0-8])|5(?:55|7[0-2]|93)|638|784)\d{4}"
  ++ en "fixedLine"
  ++ st "mobile" []
  ++ em "possibleLengths" [("national", "10"); ("localOnly", "7")]
  ++ tx "exampleNumber" "7844301234"
  ++ tx "nationalNumberPattern" "784(?:4(?:3[0-5]|5[45]|89|9[0-8])|5(?:2[6-9]|3[0-4])|720)\d{4}"
  ++ en "mobile"
  ++ st "tollFree" []
  ++ em "possibleLengths" [("national", "10")]
  ++ tx "exampleNumber" "8002345678"
  ++ tx "nationalNumberPattern" "8(?:00|33|44|55|66|77|88)[2-9]\d{6}"
  ++ en "tollFree"
  ++ st "premiumRate" []
  ++ em "possibleLengths" [("national", "10")]
  ++ tx "exampleNumber" "9002345678"
  ++ tx "nationalNumberPattern" "900[2-9]\d{6}"
  ++ en "premiumRate"
  ++ st "personalNumber" []
  ++ em "possibleLengths" [("national", "10")]
  ++ tx "exampleNumber" "5002345678"
  ++ tx "nationalNumberPattern" "52(?:3(?:[2-46-9][02-9]\d|5(?:[02-46-9]\d|5[0-46-9]))|4(?:[2-478][02-9]\d|5(?:[034]\d|2[024-9]|5[0-46-9])|6(?:0[1-9]|[2-9]\d)|9(?:[05-9]\d|2[0-5]|49)))\d{4}|52[34][2-9]1[02-9]\d{4}|5(?:00|2[125-9]|3[23]|44|66|77|88)[2-9]\d{6}"
  ++ en "personalNumber"
  ++ st "voip" []
  ++ em "possibleLengths" [("national", "10"); ("localOnly", "7")]
  ++ tx "exampleNumber" "7845101234"
  ++ tx "nationalNumberPattern" "78451[0-2]\d{4}"
  ++ en "voip"
  ++ en "territory".

Definition ev_232 : list event :=
  st "territory" [("id", "VE"); ("countryCode", "58"); ("internationalPrefix", "00"); ("nationalPrefix", "0")]
  ++ st "availableFormats" []
  ++ st "numberFormat" [("pattern", "(\d{3})(\d{7})"); ("nationalPrefixFormattingRule", "$NP$FG"); ("carrierCodeFormattingRule", "$CC $FG")]
  ++ tx "leadingDigits" "[24-689]"
  ++ tx "format" "$1-$2"
  ++ en "numberFormat"
  ++ en "availableFormats"
  ++ st "generalDesc" []
  ++ tx "nationalNumberPattern" "[68]00\d{7}|(?:[24]\d|[59]0)\d{8}"
  ++ en "generalDesc"
  ++ st "fixedLine" []
  ++ em "possibleLengths" [("national", "10"); ("localOnly", "7")]
  ++ tx "exampleNumber" "2121234567"
  ++ tx "nationalNumberPattern" "(?:2(?:12|3[457-9]|[467]\d|[58][1-9]|9[1-6])|[4-6]00)\d{7}"
  ++ en "fixedLine"
  ++ st "mobile" []
  ++ em "possibleLengths" [("national", "10")]
  ++ tx "exampleNumber" "4121234567"
  ++ tx "nationalNumberPattern" "4(?:1[24-8]|2[246])\d{7}"
  ++ en "mobile"
  ++ st "tollFree" []
  ++ em "possibleLengths" [("national", "10")]
  ++ tx "exampleNumber" "8001234567"
  ++ tx "nationalNumberPattern" "800\d{7}"
  ++ en "tollFree"
  ++ st "premiumRate" []
  ++ em "possibleLengths" [("national", "10")]
  ++ tx "exampleNumber" "9001234567"
  ++ tx "nationalNumberPattern" "90[01]\d{7}"
  ++ en "premiumRate"
  ++ st "uan" []
  ++ em "possibleLengths" [("national", "10"); ("localOnly", "7")]
  ++ tx "exampleNumber" "5010123456"
  ++ tx "nationalNumberPattern" "501\d{7}"
  ++ en "uan"
  ++ en "territory".

Definition ev_233 : list event :=
  st "territory" [("id", "VG"); ("countryCode", "1"); ("leadingDigits", "284"); ("internationalPrefix", "011"); ("nationalPrefix", "1"); ("nationalPrefixForParsing", "([2-578]\d{6})$|1"); ("nationalPrefixTransformRule", "284$1"); ("mobileNumberPortableRegion", "true")]
  ++ st "generalDesc" []
  ++ tx "nationalNumberPattern" "(?:284|[58]\d\d|900)\d{7}"
  ++ en "generalDesc"
  ++ st "fixedLine" []
  ++ em "possibleLengths" [("national", "10"); ("localOnly", "7")]
  ++ tx "exampleNumber" "2842291234"
  ++ tx "nationalNumberPattern" "284(?:229|4(?:22|9[45])|774|8(?:52|6[459]))\d{4}"
  ++ en "fixedLine"
  ++ st "mobile" []
  ++ em "possibleLengths" [("national", "10"); ("localOnly", "7")]
  ++ tx "exampleNumber" "2843001234"
  ++ tx "nationalNumberPattern" "284(?:245|3(?:0[0-3]|4[0-7]|68|9[34])|4(?:4[0-6]|68|9[69])|5(?:4[0-7]|68|9[69]))\d{4}"
  ++ en "mobile"
  ++ st "tollFree" []
  ++ em "possibleLengths" [("national", "10")]
  ++ tx "exampleNumber" "8002345678"
  ++ tx "nationalNumberPattern" "8(?:00|33|44|55|66|77|88)[2-9]\d{6}"
  ++ en "tollFree"
  ++ st "premiumRate" []
  ++ em "possibleLengths" [("national", "10")]
  ++ tx "exampleNumber" "9002345678"
  ++ tx "nationalNumberPattern" "900[2-9]\d{6}"
  ++ en "premiumRate"
  ++ st "personalNumber" []
  ++ em "possibleLengths" [("national", "10")]
  ++ tx "exampleNumber" "5002345678"
  ++ tx "nationalNumberPattern" "52(?:3(?:[2-46-9][02-9]\d|5(?:[02-46-9]\d|5[0-46-9]))|4(?:[2-478][02-9]\d|5(?:[034]\d|2[024-9]|5[0-46-9])|6(?:0[1-9]|[2-9]\d)|9(?:[05-9]\d|2[0-5]|49)))\d{4}|52[34][2-9]1[02-9]\d{4}|5(?:00|2[125-9]|3[23]|44|66|77|88)[2-9]\d{6}"
  ++ en "personalNumber"
  ++ en "territory".

Definition ev_234 : list event :=
  st "territory" [("id", "VI"); ("countryCode", "1"); ("leadingDigits", "340"); ("internationalPrefix", "011"); ("nationalPrefix", "1"); ("nationalPrefixForParsing", "([2-9]\d{6})$|1"); ("nationalPrefixTransformRule", "340$1")]
  ++ st "generalDesc" []
  ++ tx "nationalNumberPattern" "[58]\d{9}|(?:34|90)0\d{7}"
  ++ en "generalDesc"
  ++ st "fixedLine" []
  ++ em "possibleLengths" [("national", "10"); ("localOnly", "7")]
  ++ tx "exampleNumber" "3406421234"
  ++ tx "nationalNumberPattern" "340(?:2(?:0\d|10|2[06-8]|4[49]|77)|3(?:32|44)|4(?:2[23]|44|7[34]|89)|5(?:1[34]|55)|6(?:2[56]|4[23]|77|9[023])|7(?:1[2-57-9]|2[57]|7\d)|884|998)\d{4}"
  ++ en "fixedLine"
  ++ st "mobile" []
  ++ em "possibleLengths" [("national", "10"); ("localOnly", "7")]
  ++ tx "exampleNumber" "3406421234"
  ++ tx "nationalNumberPattern" "340(?:2(?:0\d|10|2[06-8]|4[49]|77)|3(?:32|44)|4(?:2[23]|44|7[34]|89)|5(?:1[34]|55)|6(?:2[56]|4[23]|77|9[023])|7(?:1[2-57-9]|2[57]|7\d)|884|998)\d{4}"
  ++ en "mobile"
  ++ st "tollFree" []
  ++ em "possibleLengths" [("national", "10")]
  ++ tx "exampleNumber" "8002345678"
  ++ tx "nationalNumberPattern" "8(?:00|33|44|55|66|77|88)[2-9]\d{6}"
  ++ en "tollFree"
  ++ st "premiumRate" []
  ++ em "possibleLengths" [("national", "10")]
  ++ tx "exampleNumber" "9002345678"
  ++ tx "nationalNumberPattern" "900[2-9]\d{6}"
  ++ en "premiumRate"
  ++ st "personalNumber" []
  ++ em "possibleLengths" [("national", "10")]
  ++ tx "exampleNumber" "5002345678"
  ++ tx "nationalNumberPattern" "52(?:3(?:[2-46-9][02-9]\d|5(?:[02-46-9]\d|5[0-46-9]))|4(?:[2-478][02-9]\d|5(?:[034]\d|2[024-9]|5[0-46-9])|6(?:0[1-9]|[2-9]\d)|9(?:[05-9]\d|2[0-5]|49)))\d{4}|52[34][2-9]1[02-9]\d{4}|5(?:00|2[125-9]|3[23]|44|66|77|88)[2-9]\d{6}"
  ++ en "personalNumber"
  ++ en "territory".

Definition ev_235 : list event :=
  st "territory" [("id", "VN"); ("countryCode", "84"); ("internationalPrefix", "00"); ("nationalPrefix", "0")]
  ++ st "availableFormats" []
  ++ st "numberFormat" [("pattern", "(\d{3})(\d{4})"); ("nationalPrefixFormattingRule", "$NP$FG"); ("nationalPrefixOptionalWhenFormatting", "true")]
  ++ tx "leadingDigits" "[17]99"
  ++ tx "format" "$1 $2"
  ++ tx "intlFormat" "NA"
  ++ en "numberFormat"
  ++ st "numberFormat" [("pattern", "(\d{3})(\d{4,5})"); ("nationalPrefixFormattingRule", "$NP$FG"); ("nationalPrefixOptionalWhenFormatting", "true")]
  ++ tx "leadingDigits" "69"
  ++ tx "format" "$1 $2"
  ++ tx "intlFormat" "NA"
  ++ en "numberFormat"
  ++ st "numberFormat" [("pattern", "(\d{4})(\d{4,6})"); ("nationalPrefixOptionalWhenFormatting", "true")]
  ++ tx "leadingDigits" "1(?:2[02]|[89])"
  ++ tx "format" "$1 $2"
  ++ en "numberFormat"
  ++ st "numberFormat" [("pattern", "(\d{2})(\d{3})(\d{2})(\d{2})"); ("nationalPrefixFormattingRule", "$NP$FG"); ("nationalPrefixOptionalWhenFormatting", "true")]
  ++ tx "leadingDigits" "1[26]|6"
  ++ tx "format" "$1 $2 $3 $4"
  ++ en "numberFormat"
  ++ st "numberFormat" [("pattern", "(\d{3})(\d{3})(\d{3})"); ("nationalPrefixFormattingRule", "$NP$FG"); ("nationalPrefixOptionalWhenFormatting", "true")]
  ++ tx "leadingDigits" "[357-9]"
  ++ tx "format" "$1 $2 $3"
  ++ en "numberFormat"
  ++ st "numberFormat" [("pattern", "(\d{2})(\d{4})(\d{4})"); ("nationalPrefixFormattingRule", "$NP$FG"); ("nationalPrefixOptionalWhenFormatting", "true")]
  ++ tx "leadingDigits" "2[48]"
  ++ tx "format" "$1 $2 $3"
  ++ en "numberFormat"
  ++ st "numberFormat" [("pattern", "(\d{3})(\d{4})(\d{3})"); ("nationalPrefixFormattingRule", "$NP$FG"); ("nationalPrefixOptionalWhenFormatting", "true")]
  ++ tx "leadingDigits" "2"
  ++ tx "format" "$1 $2 $3"
  ++ en "numberFormat"
  ++ en "availableFormats"
  ++ st "generalDesc" []
  ++ tx "nationalNumberPattern" "[12]\d{9}|[135-9]\d{8}|[16]\d{6,7}|7\d{6}"
  ++ en "generalDesc"
  ++ st "noInternationalDialling" []
  ++ em "possibleLengths" [("national", "7,8")]
  ++ tx "nationalNumberPattern" "[17]99\d{4}|69\d{5,6}"
  ++ en "noInternationalDialling"
  ++ st "fixedLine" []
  ++ em "possibleLengths" [("national", "10")]
  ++ tx "exampleNumber" "2101234567"
  ++ tx "nationalNumberPattern" "2(?:0[3-9]|1[0-689]|2[0-25-9]|[38][2-9]|4[2-8]|5[124-9]|6[0-39]|7[0-7]|9[0-4679])\d{7}"
  ++ en "fixedLine"
  ++ st "mobile" []
  ++ em "possibleLengths" [("national", "9")]
  ++ tx "exampleNumber" "912345678"
  ++ tx "nationalNumberPattern" "121[0-3]\d{5}|(?:160|(?:3\d|7[06-9])\d|5(?:[1689]\d|2[238]|59)|8(?:[1-8]\d|9[6-9])|9(?:[0-8]\d|9[013-9]))\d{6}"
  ++ en "mobile"
  ++ st "tollFree" []
  ++ em "possibleLengths" [("national", "[8-10]")]
  ++ tx "exampleNumber" "1800123456"
  ++ tx "nationalNumberPattern" "1800\d{4,6}|12(?:0[13]|28)\d{4}"
  ++ en "tollFree"
  ++ st "premiumRate" []
  ++ em "possibleLengths" [("national", "[8-10]")]
  ++ tx "exampleNumber" "1900123456"
  ++ tx "nationalNumberPattern" "1900\d{4,6}"
  ++ en "premiumRate"
  ++ st "voip" []
  ++ em "possibleLengths" [("national", "9")]
  ++ tx "exampleNumber" "672012345"
  ++ tx "nationalNumberPattern" "672\d{6}"
  ++ en "voip"
  ++ st "uan" []
  ++ em "possibleLengths" [("national", "7,8")]
  ++ tx "exampleNumber" "1992000"
  ++ tx "nationalNumberPattern" "[17]99\d{4}|69\d{5,6}"
  ++ en "uan"
  ++ en "territory".

Definition ev_236 : list event :=
  st "territory" [("id", "VU"); ("countryCode", "678"); ("internationalPrefix", "00")]
  ++ st "availableFormats" []
  ++ st "numberFormat" [("pattern", "(\d{3})(\d{4})")]
  ++ tx "leadingDigits" "[57-9]"
  ++ tx "format" "$1 $2"
  ++ en "numberFormat"
  ++ en "availableFormats"
  ++ st "generalDesc" []
  ++ tx "nationalNumberPattern" "[57-9]\d{6}|(?:[238]\d|48)\d{3}"
  ++ en "generalDesc"
  ++ st "fixedLine" []
  ++ em "possibleLengths" [("national", "5")]
  ++ tx "exampleNumber" "22123"
  ++ tx "nationalNumberPattern" "(?:38[0-8]|48[4-9])\d\d|(?:2[02-9]|3[4-7]|88)\d{3}"
  ++ en "fixedLine"
  ++ st "mobile" []
  ++ em "possibleLengths" [("national", "7")]
  ++ tx "exampleNumber" "5912345"
  ++ tx "nationalNumberPattern" "(?:[58]\d|7[0-7])\d{5}"
  ++ en "mobile"
  ++ st "tollFree" []
  ++ em "possibleLengths" [("national", "5")]
  ++ tx "exampleNumber" "81123"
  ++ tx "nationalNumberPattern" "81[18]\d\d"
  ++ en "tollFree"
  ++ st "voip" []
  ++ em "possibleLengths" [("national", "7")]
  ++ tx "exampleNumber" "9010123"
  ++ tx "nationalNumberPattern" "9(?:0[1-9]|1[01])\d{4}"
  ++ en "voip"
  ++ st "uan" []
  ++ em "possibleLengths" [("national", "5,7")]
  ++ tx "exampleNumber" "30123"
  ++ tx "nationalNumberPattern" "(?:3[03]|900\d)\d{3}"
  ++ en "uan"
  ++ en "territory".

Definition ev_237 : list event :=
  st "territory" [("id", "WF"); ("countryCode", "681"); ("internationalPrefix", "00")]
  ++ st "availableFormats" []
  ++ st "numberFormat" [("pattern", "(\d{2})(\d{2})(\d{2})")]
  ++ tx "leadingDigits" "[47-9]"
  ++ tx "format" "$1 $2 $3"
  ++ en "numberFormat"
  ++ st "numberFormat" [("pattern", "(\d{3})(\d{2})(\d{2})(\d{2})")]
  ++ tx "leadingDigits" "8"
  ++ tx "format" "$1 $2 $3 $4"
  ++ en "numberFormat"
  ++ en "availableFormats"
  ++ st "generalDesc" []
  ++ tx "nationalNumberPattern" "(?:40|72|8\d{4})\d{4}|[89]\d{5}"
  ++ en "generalDesc"
  ++ st "fixedLine" []
  ++ em "possibleLengths" [("national", "6")]
  ++ tx "exampleNumber" "721234"
  ++ tx "nationalNumberPattern" "72\d{4}"
  ++ en "fixedLine"
  ++ st "mobile" []
  ++ em "possibleLengths" [("national", "6")]
  ++ tx "exampleNumber" "821234"
  ++ tx "nationalNumberPattern" "(?:72|8[23])\d{4}"
  ++ en "mobile"
  ++ st "tollFree" []
  ++ em "possibleLengths" [("national", "9")]
  ++ tx "exampleNumber" "800012345"
  ++ tx "nationalNumberPattern" "80[0-5]\d{6}"
  ++ en "tollFree"
  ++ st "voip" []
  ++ em "possibleLengths" [("national", "6")]
  ++ tx "exampleNumber" "921234"
  ++ tx "nationalNumberPattern" "9[23]\d{4}"
  ++ en "voip"
  ++ st "voicemail" []
  ++ em "possibleLengths" [("national", "6")]
  ++ tx "exampleNumber" "401234"
  ++ tx "nationalNumberPattern" "[48]0\d{4}"
  ++ en "voicemail"
  ++ en "territory".

Definition ev_238 : list event :=
  st "territory" [("id", "WS"); ("countryCode", "685"); ("internationalPrefix", "0")]
  ++ st "availableFormats" []
  ++ st "numberFormat" [("pattern", "(\d{5})")]
  ++ tx "leadingDigits" "[2-5]|6[1-9]"
  ++ tx "format" "$1"
  ++ en "numberFormat"
  ++ st "numberFormat" [("pattern", "(\d{3})(\d{3,7})")]
  ++ tx "leadingDigits" "[68]"
  ++ tx "format" "$1 $2"
  ++ en "numberFormat"
  ++ st "numberFormat" [("pattern", "(\d{2})(\d{5})")]
  ++ tx "leadingDigits" "7"
  ++ tx "format" "$1 $2"
  ++ en "numberFormat"
  ++ en "availableFormats"
  ++ st "generalDesc" []
  ++ tx "nationalNumberPattern" "(?:[2-6]|8\d{5})\d{4}|[78]\d{6}|[68]\d{5}"
  ++ en "generalDesc"
  ++ st "fixedLine" []
  ++ em "possibleLengths" [("national", "5,6")]
  ++ tx "exampleNumber" "22123"
  ++ tx "nationalNumberPattern" "6[1-9]\d{3}|(?:[2-5]|60)\d{4}"
  ++ en "fixedLine"
  ++ st "mobile" []
  ++ em "possibleLengths" [("national", "7,10")]
  ++ tx "exampleNumber" "7212345"
  ++ tx "nationalNumberPattern" "(?:7[1-35-8]|8(?:[3-7]|9\d{3}))\d{5}"
  ++ en "mobile"
  ++ st "tollFree" []
  ++ em "possibleLengths" [("national", "6")]
  ++ tx "exampleNumber" "800123"
  ++ tx "nationalNumberPattern" "800\d{3}"
  ++ en "tollFree"
  ++ en "territory".

Definition ev_239 : list event :=
  st "territory" [("id", "XK"); ("countryCode", "383"); ("internationalPrefix", "00"); ("nationalPrefix", "0")]
  ++ st "availableFormats" []
  ++ st "numberFormat" [("pattern", "(\d{3})(\d{5})"); ("nationalPrefixFormattingRule", "$NP$FG")]
  ++ tx "leadingDigits" "[89]"
  ++ tx "format" "$1 $2"
  ++ en "numberFormat"
  ++ st "numberFormat" [("pattern", "(\d{2})(\d{3})(\d{3})"); ("nationalPrefixFormattingRule", "$NP$FG")]
  ++ tx "leadingDigits" "[2-4]"
  ++ tx "format" "$1 $2 $3"
  ++ en "numberFormat"
  ++ st "numberFormat" [("pattern", "(\d{3})(\d{3})(\d{3})"); ("nationalPrefixFormattingRule", "$NP$FG")]
  ++ tx "leadingDigits" "2|39"
  ++ tx "format" "$1 $2 $3"
  ++ en "numberFormat"
  ++ st "numberFormat" [("pattern", "(\d{2})(\d{7,10})"); ("nationalPrefixFormattingRule", "$NP$FG")]
  ++ tx "leadingDigits" "3"
  ++ tx "format" "$1 $2"
  ++ en "numberFormat"
  ++ en "availableFormats"
  ++ st "generalDesc" []
  ++ tx "nationalNumberPattern" "2\d{7,8}|3\d{7,11}|(?:4\d\d|[89]00)\d{5}"
  ++ en "generalDesc"
  ++ st "fixedLine" []
  ++ em "possibleLengths" [("national", "[8-12]")]
  ++ tx "exampleNumber" "28012345"
  ++ tx "nationalNumberPattern" "38\d{6,10}|(?:2[89]|39)(?:0\d{5,6}|[1-9]\d{5})"
  ++ en "fixedLine"
  ++ st "mobile" []
  ++ em "possibleLengths" [("national", "8")]
  ++ tx "exampleNumber" "43201234"
  ++ tx "nationalNumberPattern" "4[3-9]\d{6}"
  ++ en "mobile"
  ++ st "tollFree" []
  ++ em "possibleLengths" [("national", "8")]
  ++ tx "exampleNumber" "80001234"
  ++ tx "nationalNumberPattern" "800\d{5}"
  ++ en "tollFree"
  ++ st "premiumRate" []
  ++ em "possibleLengths" [("national", "8")]
  ++ tx "exampleNumber" "90001234"
  ++ tx "nationalNumberPattern" "900\d{5}"
  ++ en "premiumRate"
  ++ en "territory".

Definition ev_240 : list event :=
  st "territory" [("id", "YE"); ("countryCode", "967"); ("internationalPrefix", "00"); ("nationalPrefix", "0")]
  ++ st "availableFormats" []
  ++ st "numberFormat" [("pattern", "(\d)(\d{3})(\d{3,4})"); ("nationalPrefixFormattingRule", "$NP$FG")]
  ++ tx "leadingDigits" "[1-6]|7(?:[24-6]|8[0-7])"
  ++ tx "format" "$1 $2 $3"
  ++ en "numberFormat"
  ++ st "numberFormat" [("pattern", "(\d{3})(\d{3})(\d{3})"); ("nationalPrefixFormattingRule", "$NP$FG")]
  ++ tx "leadingDigits" "7"
  ++ tx "format" "$1 $2 $3"
  ++ en "numberFormat"
  ++ en "availableFormats"
  ++ st "generalDesc" []
  ++ tx "nationalNumberPattern" "(?:1|7\d)\d{7}|[1-7]\d{6}"
  ++ en "generalDesc"
  ++ st "fixedLine" []
  ++ em "possibleLengths" [("national", "7,8"); ("localOnly", "6")]
  ++ tx "exampleNumber" "1234567"
  ++ tx "nationalNumberPattern" "78[0-7]\d{4}|17\d{6}|(?:[12][2-68]|3[2358]|4[2-58]|5[2-6]|6[3-58]|7[24-6])\d{5}"
  ++ en "fixedLine"
  ++ st "mobile" []
  ++ em "possibleLengths" [("national", "9")]
  ++ tx "exampleNumber" "712345678"
  ++ tx "nationalNumberPattern" "7[01378]\d{7}"
  ++ en "mobile"
  ++ en "territory".

Definition ev_241 : list event :=
  st "territory" [("id", "YT"); ("countryCode", "262"); ("internationalPrefix", "00"); ("nationalPrefix", "0")]
  ++ st "generalDesc" []
  ++ tx "nationalNumberPattern" "(?:639\d|7093)\d{5}|(?:26|80|9\d)\d{7}"
  ++ en "generalDesc"
  ++ st "fixedLine" []
  ++ em "possibleLengths" [("national", "9")]
  ++ tx "exampleNumber" "269601234"
  ++ tx "nationalNumberPattern" "26(?:89\d|9(?:0[0-467]|15|5[0-4]|6\d|[78]0))\d{4}"
  ++ en "fixedLine"
  ++ st "mobile" []
  ++ em "possibleLengths" [("national", "9")]
  ++ tx "exampleNumber" "639012345"
  ++ tx "nationalNumberPattern" "(?:639(?:0[0-79]|1[019]|[267]\d|3[09]|40|5[05-9]|9[04-79])|7093[5-7])\d{4}"
  ++ en "mobile"
  ++ st "tollFree" []
  ++ em "possibleLengths" [("national", "9")]
  ++ tx "exampleNumber" "801234567"
  ++ tx "nationalNumberPattern" "80\d{7}"
  ++ en "tollFree"
  ++ st "voip" []
  ++ em "possibleLengths" [("national", "9")]
  ++ tx "exampleNumber" "939801234"
  ++ tx "nationalNumberPattern" "9(?:(?:39|47)8[01]|769\d)\d{4}"
  ++ en "voip"
  ++ en "territory".

Definition ev_242 : list event :=
  st "territory" [("id", "ZA"); ("countryCode", "27"); ("internationalPrefix", "00"); ("nationalPrefix", "0"); ("mobileNumberPortableRegion", "true")]
  ++ st "availableFormats" []
  ++ st "numberFormat" [("pattern", "(\d{2})(\d{3,4})"); ("nationalPrefixFormattingRule", "$NP$FG")]
  ++ tx "leadingDigits" "8[1-4]"
  ++ tx "format" "$1 $2"
  ++ en "numberFormat"
  ++ st "numberFormat" [("pattern", "(\d{2})(\d{3})(\d{2,3})"); ("nationalPrefixFormattingRule", "$NP$FG")]
  ++ tx "leadingDigits" "8[1-4]"
  ++ tx "format" "$1 $2 $3"
  ++ en "numberFormat"
  ++ st "numberFormat" [("pattern", "(\d{3})(\d{3})(\d{3})"); ("nationalPrefixFormattingRule", "$NP$FG")]
  ++ tx "leadingDigits" "860"
  ++ tx "format" "$1 $2 $3"
  ++ en "numberFormat"
  ++ st "numberFormat" [("pattern", "(\d{2})(\d{3})(\d{4})"); ("nationalPrefixFormattingRule", "$NP$FG")]
  ++ tx "leadingDigits" "[1-9]"
  ++ tx "format" "$1 $2 $3"
  ++ en "numberFormat"
  ++ st "numberFormat" [("pattern", "(\d{3})(\d{3})(\d{4})"); ("nationalPrefixFormattingRule", "$NP$FG")]
  ++ tx "leadingDigits" "8"
  ++ tx "format" "$1 $2 $3"
  ++ en "numberFormat"
  ++ en "availableFormats"
  ++ st "generalDesc" []
  ++ tx "nationalNumberPattern" "[1-79]\d{8}|8\d{4,9}"
  ++ en "generalDesc"
  ++ st "fixedLine" []
  ++ em "possibleLengths" [("national", "9")]
  ++ tx "exampleNumber" "101234567"
  ++ tx "nationalNumberPattern" "(?:2(?:0330|4302)|52087)0\d{3}|(?:1[0-8]|2[1-378]|3[1-69]|4\d|5[1346-8])\d{7}"
  ++ en "fixedLine"
  ++ st "mobile" []
  ++ em "possibleLengths" [("national", "[5-9]")]
  ++ tx "exampleNumber" "711234567"
  ++ tx "nationalNumberPattern" "(?:1(?:3492[0-25]|4495[0235]|549(?:20|5[01]))|4[34]492[01])\d{3}|8[1-4]\d{3,7}|(?:2[27]|47|54)4950\d{3}|(?:1(?:049[2-4]|9[12]\d\d)|(?:50[0-2]|[67]\d\d)\d\d|8(?:5\d{3}|7(?:08[67]|158|28[5-9]|310)))\d{4}|(?:1[6-8]|28|3[2-69]|4[025689]|5[36-8])4920\d{3}|(?:12|[2-5]1)492\d{4}"
  ++ en "mobile"
  ++ st "tollFree" []
  ++ em "possibleLengths" [("national", "9")]
  ++ tx "exampleNumber" "801234567"
  ++ tx "nationalNumberPattern" "80\d{7}"
  ++ en "tollFree"
  ++ st "premiumRate" []
  ++ em "possibleLengths" [("national", "9")]
  ++ tx "exampleNumber" "862345678"
  ++ tx "nationalNumberPattern" "(?:86[2-9]|9[0-2]\d)\d{6}"
  ++ en "premiumRate"
  ++ st "sharedCost" []
  ++ em "possibleLengths" [("national", "9")]
  ++ tx "exampleNumber" "860123456"
  ++ tx "nationalNumberPattern" "860\d{6}"
  ++ en "sharedCost"
  ++ st "voip" []
  ++ em "possibleLengths" [("national", "9")]
  ++ tx "exampleNumber" "871234567"
  ++ tx "nationalNumberPattern" "87(?:08[0-589]|15[0-79]|28[0-4]|31[1-9])\d{4}|87(?:[02][0-79]|1[0-46-9]|3[02-9]|[4-9]\d)\d{5}"
  ++ en "voip"
  ++ st "uan" []
  ++ em "possibleLengths" [("national", "9,10")]
  ++ tx "exampleNumber" "861123456"
  ++ tx "nationalNumberPattern" "861\d{6,7}"
  ++ en "uan"
  ++ en "territory".

Definition ev_243 : list event :=
  st "territory" [("id", "ZM"); ("countryCode", "260"); ("internationalPrefix", "00"); ("nationalPrefix", "0")]
  ++ st "availableFormats" []
  ++ st "numberFormat" [("pattern", "(\d{3})(\d{3})")]
  ++ tx "leadingDigits" "[1-9]"
  ++ tx "format" "$1 $2"
  ++ tx "intlFormat" "NA"
  ++ en "numberFormat"
  ++ st "numberFormat" [("pattern", "(\d{3})(\d{3})(\d{3})"); ("nationalPrefixFormattingRule", "$NP$FG")]
  ++ tx "leadingDigits" "[28]"
  ++ tx "format" "$1 $2 $3"
  ++ en "numberFormat"
  ++ st "numberFormat" [("pattern", "(\d{2})(\d{7})"); ("nationalPrefixFormattingRule", "$NP$FG")]
  ++ tx "leadingDigits" "[579]"
  ++ tx "format" "$1 $2"
  ++ en "numberFormat"
  ++ en "availableFormats"
  ++ st "generalDesc" []
  ++ tx "nationalNumberPattern" "800\d{6}|(?:21|[579]\d|63)\d{7}"
  ++ en "generalDesc"
  ++ st "fixedLine" []
  ++ em "possibleLengths" [("national", "9"); ("localOnly", "6")]
  ++ tx "exampleNumber" "211234567"
  ++ tx "nationalNumberPattern" "21[1-8]\d{6}"
  ++ en "fixedLine"
  ++ st "mobile" []
  ++ em "possibleLengths" [("national", "9")]
  ++ tx "exampleNumber" "955123456"
  ++ tx "nationalNumberPattern" "(?:[59][5-8]|7[5-9])\d{7}"
  ++ en "mobile"
  ++ st "tollFree" []
  ++ em "possibleLengths" [("national", "9")]
  ++ tx "exampleNumber" "800123456"
  ++ tx "nationalNumberPattern" "800\d{6}"
  ++ en "tollFree"
  ++ st "voip" []
  ++ em "possibleLengths" [("national", "9")]
  ++ tx "exampleNumber" "630123456"
  ++ tx "nationalNumberPattern" "63\d{7}"
  ++ en "voip"
  ++ en "territory".

Definition ev_244 : list event :=
  st "territory" [("id", "ZW"); ("countryCode", "263"); ("internationalPrefix", "00"); ("nationalPrefix", "0")]
  ++ st "availableFormats" []
  ++ st "numberFormat" [("pattern", "(\d{3})(\d{3,5})"); ("nationalPrefixFormattingRule", "$NP$FG")]
  ++ tx "leadingDigits" "2(?:0[45]|2[278]|[49]8)|3(?:[09]8|17)|6(?:[29]8|37|75)|[23][78]|(?:33|5[15]|6[68])[78]"
  ++ tx "format" "$1 $2"
  ++ en "numberFormat"
  ++ st "numberFormat" [("pattern", "(\d)(\d{3})(\d{2,4})"); ("nationalPrefixFormattingRule", "$NP$FG")]
  ++ tx "leadingDigits" "[49]"
  ++ tx "format" "$1 $2 $3"
  ++ en "numberFormat"
  ++ st "numberFormat" [("pattern", "(\d{3})(\d{4})"); ("nationalPrefixFormattingRule", "$NP$FG")]
  ++ tx "leadingDigits" "80"
  ++ tx "format" "$1 $2"
  ++ en "numberFormat"
  ++ st "numberFormat" [("pattern", "(\d{2})(\d{7})"); ("nationalPrefixFormattingRule", "($NP$FG)")]
  ++ tx "leadingDigits" "24|8[13-59]|(?:2[05-79]|39|5[45]|6[15-8])2"
  ++ tx "leadingDigits" "2(?:02[014]|4|[56]20|[79]2)|392|5(?:42|525)|6(?:[16-8]21|52[013])|8[13-59]"
  ++ tx "format" "$1 $2"
  ++ en "numberFormat"
  ++ st "numberFormat" [("pattern", "(\d{2})(\d{3})(\d{4})"); ("nationalPrefixFormattingRule", "$NP$FG")]
  ++ tx "leadingDigits" "7"
  ++ tx "format" "$1 $2 $3"
  ++ en "numberFormat"
  ++ st "numberFormat" [("pattern", "(\d{3})(\d{3})(\d{3,4})"); ("nationalPrefixFormattingRule", "$NP$FG")]
  ++ tx "leadingDigits" "2(?:1[39]|2[0157]|[378]|[56][14])|3(?:12|29)"
  ++ tx "leadingDigits" "2(?:1[39]|2[0157]|[378]|[56][14])|3(?:123|29)"
  ++ tx "format" "$1 $2 $3"
  ++ en "numberFormat"
  ++ st "numberFormat" [("pattern", "(\d{4})(\d{6})"); ("nationalPrefixFormattingRule", "$NP$FG")]
  ++ tx "leadingDigits" "8"
  ++ tx "format" "$1 $2"
  ++ en "numberFormat"
  ++ st "numberFormat" [("pattern", "(\d{2})(\d{3,5})"); ("nationalPrefixFormattingRule", "$NP$FG")]
  ++ tx "leadingDigits" "1|2(?:0[0-36-9]|12|29|[56])|3(?:1[0-689]|[24-6])|5(?:[0236-9]|1[2-4])|6(?:[013-59]|7[0-46-9])|(?:33|55|6[68])[0-69]|(?:29|3[09]|62)[0-79]"
  ++ tx "format" "$1 $2"
  ++ en "numberFormat"
  ++ st "numberFormat" [("pattern", "(\d{2})(\d{3})(\d{3,4})"); ("nationalPrefixFormattingRule", "$NP$FG")]
  ++ tx "leadingDigits" "29[013-9]|39|54"
  ++ tx "format" "$1 $2 $3"
  ++ en "numberFormat"
  ++ st "numberFormat" [("pattern", "(\d{4})(\d{3,5})"); ("nationalPrefixFormattingRule", "$NP$FG")]
  ++ tx "leadingDigits" "(?:25|54)8"
  ++ tx "leadingDigits" "258|5483"
  ++ tx "format" "$1 $2"
  ++ en "numberFormat"
  ++ en "availableFormats"
  ++ st "generalDesc" []
  ++ tx "nationalNumberPattern" "2(?:[0-57-9]\d{6,8}|6[0-24-9]\d{6,7})|[38]\d{9}|[35-8]\d{8}|[3-6]\d{7}|[1-689]\d{6}|[1-3569]\d{5}|[1356]\d{4}"
  ++ en "generalDesc"
  ++ st "fixedLine" []
  ++ em "possibleLengths" [("national", "[5-10]"); ("localOnly", "3,4")]
  ++ tx "exampleNumber" "1312345"
  ++ tx "nationalNumberPattern" "(?:1(?:(?:3\d|9)\d|[4-8])|2(?:(?:(?:0(?:2[014]|5)|(?:2[0157]|31|84|9)\d\d|[56](?:[14]\d\d|20)|7(?:[089]|2[03]|[35]\d\d))\d|4(?:2\d\d|8))\d|1(?:2|[39]\d{4}))|3(?:(?:123|(?:29\d|92)\d)\d\d|7(?:[19]|[56]\d))|5(?:0|1[2-478]|26|[37]2|4(?:2\d{3}|83)|5(?:25\d\d|[78])|[689]\d)|6(?:(?:[16-8]21|28|52[013])\d\d|[39])|8(?:[1349]28|523)\d\d)\d{3}|(?:4\d\d|9[2-9])\d{4,5}|(?:(?:2(?:(?:(?:0|8[146])\d|7[1-7])\d|2(?:[278]\d|92)|58(?:2\d|3))|3(?:[26]|9\d{3})|5(?:4\d|5)\d\d)\d|6(?:(?:(?:[0-246]|[78]\d)\d|37)\d|5[2-8]))\d\d|(?:2(?:[569]\d|8[2-57-9])|3(?:[013-59]\d|8[37])|6[89]8)\d{3}"
  ++ en "fixedLine"
  ++ st "mobile" []
  ++ em "possibleLengths" [("national", "9")]
  ++ tx "exampleNumber" "712345678"
  ++ tx "nationalNumberPattern" "7(?:[1278]\d|3[1-9])\d{6}"
  ++ en "mobile"
  ++ st "tollFree" []
  ++ em "possibleLengths" [("national", "7")]
  ++ tx "exampleNumber" "8001234"
  ++ tx "nationalNumberPattern" "80(?:[01]\d|20|8[0-8])\d{3}"
  ++ en "tollFree"
  ++ st "voip" []
  ++ em "possibleLengths" [("national", "10")]
  ++ tx "exampleNumber" "8686123456"
  ++ tx "nationalNumberPattern" "86(?:1[12]|22|30|44|55|77|8[368])\d{6}"
  ++ en "voip"
  ++ en "territory".

Definition ev_245 : list event :=
  st "territory" [("id", "001"); ("countryCode", "800")]
  ++ st "availableFormats" []
  ++ st "numberFormat" [("pattern", "(\d{4})(\d{4})")]
  ++ tx "leadingDigits" "\d"
  ++ tx "format" "$1 $2"
  ++ en "numberFormat"
  ++ en "availableFormats"
  ++ st "generalDesc" []
  ++ tx "nationalNumberPattern" "(?:00|[1-9]\d)\d{6}"
  ++ en "generalDesc"
  ++ st "tollFree" []
  ++ em "possibleLengths" [("national", "8")]
  ++ tx "exampleNumber" "12345678"
  ++ tx "nationalNumberPattern" "(?:00|[1-9]\d)\d{6}"
  ++ en "tollFree"
  ++ en "territory".

Definition ev_246 : list event :=
  st "territory" [("id", "001"); ("countryCode", "808")]
  ++ st "availableFormats" []
  ++ st "numberFormat" [("pattern", "(\d{4})(\d{4})")]
  ++ tx "leadingDigits" "[1-9]"
  ++ tx "format" "$1 $2"
  ++ en "numberFormat"
  ++ en "availableFormats"
  ++ st "generalDesc" []
  ++ tx "nationalNumberPattern" "[1-9]\d{7}"
  ++ en "generalDesc"
  ++ st "sharedCost" []
  ++ em "possibleLengths" [("national", "8")]
  ++ tx "exampleNumber" "12345678"
  ++ tx "nationalNumberPattern" "[1-9]\d{7}"
  ++ en "sharedCost"
  ++ en "territory".

Definition ev_247 : list event :=
  st "territory" [("id", "001"); ("countryCode", "870")]
  ++ st "availableFormats" []
  ++ st "numberFormat" [("pattern", "(\d{3})(\d{3})(\d{3})")]
  ++ tx "leadingDigits" "[235-7]"
  ++ tx "format" "$1 $2 $3"
  ++ en "numberFormat"
  ++ en "availableFormats"
  ++ st "generalDesc" []
  ++ tx "nationalNumberPattern" "7\d{11}|[235-7]\d{8}"
  ++ en "generalDesc"
  ++ st "mobile" []
  ++ em "possibleLengths" [("national", "9,12")]
  ++ tx "exampleNumber" "301234567"
  ++ tx "nationalNumberPattern" "(?:[356]|774[45])\d{8}|7[6-8]\d{7}"
  ++ en "mobile"
  ++ st "voip" []
  ++ em "possibleLengths" [("national", "9")]
  ++ tx "exampleNumber" "201234567"
  ++ tx "nationalNumberPattern" "2\d{8}"
  ++ en "voip"
  ++ en "territory".

Definition ev_248 : list event :=
  st "territory" [("id", "001"); ("countryCode", "878")]
  ++ st "availableFormats" []
  ++ st "numberFormat" [("pattern", "(\d{2})(\d{5})(\d{5})")]
  ++ tx "leadingDigits" "1"
  ++ tx "format" "$1 $2 $3"
  ++ en "numberFormat"
  ++ en "availableFormats"
  ++ st "generalDesc" []
  ++ tx "nationalNumberPattern" "10\d{10}"
  ++ en "generalDesc"
  ++ st "voip" []
  ++ em "possibleLengths" [("national", "12")]
  ++ tx "exampleNumber" "101234567890"
  ++ tx "nationalNumberPattern" "10\d{10}"
  ++ en "voip"
  ++ en "territory".

Definition ev_249 : list event :=
  st "territory" [("id", "001"); ("countryCode", "881")]
  ++ st "availableFormats" []
  ++ st "numberFormat" [("pattern", "(\d)(\d{3})(\d{5})")]
  ++ tx "leadingDigits" "[0-37-9]"
  ++ tx "format" "$1 $2 $3"
  ++ en "numberFormat"
  ++ st "numberFormat" [("pattern", "(\d)(\d{3})(\d{5,6})")]
  ++ tx "leadingDigits" "6"
  ++ tx "format" "$1 $2 $3"
  ++ en "numberFormat"
  ++ en "availableFormats"
  ++ st "generalDesc" []
  ++ tx "nationalNumberPattern" "6\d{9}|[0-36-9]\d{8}"
  ++ en "generalDesc"
  ++ st "mobile" []
  ++ em "possibleLengths" [("national", "9,10")]
  ++ tx "exampleNumber" "612345678"
  ++ tx "nationalNumberPattern" "6\d{9}|[0-36-9]\d{8}"
  ++ en "mobile"
  ++ en "territory".

Definition ev_250 : list event :=
  st "territory" [("id", "001"); ("countryCode", "882")]
  ++ st "availableFormats" []
  ++ st "numberFormat" [("pattern", "(\d{2})(\d{5})")]
  ++ tx "leadingDigits" "16|342"
  ++ tx "format" "$1 $2"
  ++ en "numberFormat"
  ++ st "numberFormat" [("pattern", "(\d{2})(\d{6})")]
  ++ tx "leadingDigits" "49"
  ++ tx "format" "$1 $2"
  ++ en "numberFormat"
  ++ st "numberFormat" [("pattern", "(\d{2})(\d{2})(\d{4})")]
  ++ tx "leadingDigits" "1[36]|9"
  ++ tx "format" "$1 $2 $3"
  ++ en "numberFormat"
  ++ st "numberFormat" [("pattern", "(\d{2})(\d{4})(\d{3})")]
  ++ tx "leadingDigits" "3[23]"
  ++ tx "format" "$1 $2 $3"
  ++ en "numberFormat"
  ++ st "numberFormat" [("pattern", "(\d{2})(\d{3,4})(\d{4})")]
  ++ tx "leadingDigits" "16"
  ++ tx "format" "$1 $2 $3"
  ++ en "numberFormat"
  ++ st "numberFormat" [("pattern", "(\d{2})(\d{4})(\d{4})")]
  ++ tx "leadingDigits" "10|23|3(?:[15]|4[57])|4|5[12]"
  ++ tx "format" "$1 $2 $3"
  ++ en "numberFormat"
  ++ st "numberFormat" [("pattern", "(\d{3})(\d{4})(\d{4})")]
  ++ tx "leadingDigits" "34"
  ++ tx "format" "$1 $2 $3"
  ++ en "numberFormat"
  ++ st "numberFormat" [("pattern", "(\d{2})(\d{4,5})(\d{5})")]
  ++ tx "leadingDigits" "[1-35]"
  ++ tx "format" "$1 $2 $3"
  ++ en "numberFormat"
  ++ en "availableFormats"
  ++ st "generalDesc" []
  ++ tx "nationalNumberPattern" "[13]\d{6}(?:\d{2,5})?|[19]\d{7}|(?:[25]\d\d|4)\d{7}(?:\d{2})?"
  ++ en "generalDesc"
  ++ st "mobile" []
  ++ em "possibleLengths" [("national", "[7-10],12")]
  ++ tx "exampleNumber" "3421234"
  ++ tx "nationalNumberPattern" "342\d{4}|(?:337|49)\d{6}|(?:3(?:2|47|7\d{3})|5(?:0\d{3}|2[0-2]))\d{7}"
  ++ en "mobile"
  ++ st "voip" []
  ++ em "possibleLengths" [("national", "[7-12]")]
  ++ tx "exampleNumber" "390123456789"
  ++ tx "nationalNumberPattern" "1(?:3(?:0[0347]|[13][0139]|2[035]|4[013568]|6[0459]|7[06]|8[15-8]|9[0689])\d{4}|6\d{5,10})|(?:345\d|9[89])\d{6}|(?:10|2(?:3|85\d)|3(?:[15]|[69]\d\d)|4[15-8]|51)\d{8}"
  ++ en "voip"
  ++ st "voicemail" []
  ++ em "possibleLengths" [("national", "11")]
  ++ tx "exampleNumber" "34851234567"
  ++ tx "nationalNumberPattern" "348[57]\d{7}"
  ++ en "voicemail"
  ++ en "territory".

Definition ev_251 : list event :=
  st "territory" [("id", "001"); ("countryCode", "883")]
  ++ st "availableFormats" []
  ++ st "numberFormat" [("pattern", "(\d{3})(\d{3})(\d{2,8})")]
  ++ tx "leadingDigits" "[14]|2[24-689]|3[02-689]|51[24-9]"
  ++ tx "format" "$1 $2 $3"
  ++ en "numberFormat"
  ++ st "numberFormat" [("pattern", "(\d{3})(\d{3})(\d{3})")]
  ++ tx "leadingDigits" "510"
  ++ tx "format" "$1 $2 $3"
  ++ en "numberFormat"
  ++ st "numberFormat" [("pattern", "(\d{3})(\d{3})(\d{4})")]
  ++ tx "leadingDigits" "21"
  ++ tx "format" "$1 $2 $3"
  ++ en "numberFormat"
  ++ st "numberFormat" [("pattern", "(\d{4})(\d{4})(\d{4})")]
  ++ tx "leadingDigits" "51[13]"
  ++ tx "format" "$1 $2 $3"
  ++ en "numberFormat"
  ++ st "numberFormat" [("pattern", "(\d{3})(\d{3})(\d{3})(\d{3})")]
  ++ tx "leadingDigits" "[235]"
  ++ tx "format" "$1 $2 $3 $4"
  ++ en "numberFormat"
  ++ en "availableFormats"
  ++ st "generalDesc" []
  ++ tx "nationalNumberPattern" "(?:[1-4]\d|51)\d{6,10}"
  ++ en "generalDesc"
  ++ st "voip" []
  ++ em "possibleLengths" [("national", "[8-12]")]
  ++ tx "exampleNumber" "510012345"
  ++ tx "nationalNumberPattern" "(?:2(?:00\d\d|10)|(?:370[1-9]|51\d0)\d)\d{7}|51(?:00\d{5}|[24-9]0\d{4,7})|(?:1[0-79]|2[24-689]|3[02-689]|4[0-4])0\d{5,9}"
  ++ en "voip"
  ++ en "territory".

Definition ev_252 : list event :=
  st "territory" [("id", "001"); ("countryCode", "888")]
  ++ st "availableFormats" []
  ++ st "numberFormat" [("pattern", "(\d{3})(\d{3})(\d{5})")]
  ++ tx "format" "$1 $2 $3"
  ++ en "numberFormat"
  ++ en "availableFormats"
  ++ st "generalDesc" []
  ++ tx "nationalNumberPattern" "\d{11}"
  ++ en "generalDesc"
  ++ st "uan" []
  ++ em "possibleLengths" [("national", "11")]
  ++ tx "exampleNumber" "12345678901"
  ++ tx "nationalNumberPattern" "\d{11}"
  ++ en "uan"
  ++ en "territory".

Definition ev_253 : list event :=
  st "territory" [("id", "001"); ("countryCode", "979")]
  ++ st "availableFormats" []
  ++ st "numberFormat" [("pattern", "(\d)(\d{4})(\d{4})")]
  ++ tx "leadingDigits" "[1359]"
  ++ tx "format" "$1 $2 $3"
  ++ en "numberFormat"
  ++ en "availableFormats"
  ++ st "generalDesc" []
  ++ tx "nationalNumberPattern" "[1359]\d{8}"
  ++ en "generalDesc"
  ++ st "premiumRate" []
  ++ em "possibleLengths" [("national", "9"); ("localOnly", "8")]
  ++ tx "exampleNumber" "123456789"
  ++ tx "nationalNumberPattern" "[1359]\d{8}"
  ++ en "premiumRate"
  ++ en "territory".

Definition events_d : list (list event) := [ev_192; ev_193; ev_194; ev_195; ev_196; ev_197; ev_198; ev_199; ev_200; ev_201; ev_202; ev_203; ev_204; ev_205; ev_206; ev_207; ev_208; ev_209; ev_210; ev_211; ev_212; ev_213; ev_214; ev_215; ev_216; ev_217; ev_218; ev_219; ev_220; ev_221; ev_222; ev_223; ev_224; ev_225; ev_226; ev_227; ev_228; ev_229; ev_230; ev_231; ev_232; ev_233; ev_234; ev_235; ev_236; ev_237; ev_238; ev_239; ev_240; ev_241; ev_242; ev_243; ev_244; ev_245; ev_246; ev_247; ev_248; ev_249; ev_250; ev_251; ev_252; ev_253].
