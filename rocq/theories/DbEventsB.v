(** Generated by tools/gen_db.py from /repo/assets/PhoneNumberMetadata.xml: XML events,
    territories 65 to 128 of 254.  See the script for what is dropped. *)
From Verif Require Import Base CountryId Types Metadata Loader DbEventsDefs.
Local Open Scope bstr_scope.

Definition ev_64 : list event :=
  st "territory" [("id", "EH"); ("countryCode", "212"); ("internationalPrefix", "00"); ("nationalPrefix", "0")]
  ++ st "generalDesc" []
  ++ tx "nationalNumberPattern" "[5-8]\d{8}"
  ++ en "generalDesc"
  ++ st "fixedLine" []
  ++ em "possibleLengths" [("national", "9")]
  ++ tx "exampleNumber" "528812345"
  ++ tx "nationalNumberPattern" "528[89]\d{5}"
  ++ en "fixedLine"
  ++ st "mobile" []
  ++ em "possibleLengths" [("national", "9")]
  ++ tx "exampleNumber" "650123456"
  ++ tx "nationalNumberPattern" "(?:6(?:[0-79]\d|8[0-247-9])|7(?:[016-8]\d|2[0-8]|5[0-5]))\d{6}"
  ++ en "mobile"
  ++ st "tollFree" []
  ++ em "possibleLengths" [("national", "9")]
  ++ tx "exampleNumber" "801234567"
  ++ tx "nationalNumberPattern" "80[0-7]\d{6}"
  ++ en "tollFree"
  ++ st "premiumRate" []
  ++ em "possibleLengths" [("national", "9")]
  ++ tx "exampleNumber" "891234567"
  ++ tx "nationalNumberPattern" "89\d{7}"
  ++ en "premiumRate"
  ++ st "voip" []
  ++ em "possibleLengths" [("national", "9")]
  ++ tx "exampleNumber" "592401234"
  ++ tx "nationalNumberPattern" "(?:592(?:4[0-2]|93)|80[89]\d\d)\d{4}"
  ++ en "voip"
  ++ en "territory".

Definition ev_65 : list event :=
  st "territory" [("id", "ER"); ("countryCode", "291"); ("internationalPrefix", "00"); ("nationalPrefix", "0")]
  ++ st "availableFormats" []
  ++ st "numberFormat" [("pattern", "(\d)(\d{3})(\d{3})"); ("nationalPrefixFormattingRule", "$NP$FG")]
  ++ tx "leadingDigits" "[178]"
  ++ tx "format" "$1 $2 $3"
  ++ en "numberFormat"
  ++ en "availableFormats"
  ++ st "generalDesc" []
  ++ tx "nationalNumberPattern" "[178]\d{6}"
  ++ en "generalDesc"
  ++ st "fixedLine" []
  ++ em "possibleLengths" [("national", "7"); ("localOnly", "6")]
  ++ tx "exampleNumber" "8370362"
  ++ tx "nationalNumberPattern" "(?:1(?:1[12568]|[24]0|55|6[146])|8\d\d)\d{4}"
  ++ en "fixedLine"
  ++ st "mobile" []
  ++ em "possibleLengths" [("national", "7")]
  ++ tx "exampleNumber" "7123456"
  ++ tx "nationalNumberPattern" "(?:17[1-3]|7\d\d)\d{4}"
  ++ en "mobile"
  ++ en "territory".

Definition ev_66 : list event :=
  st "territory" [("id", "ES"); ("countryCode", "34"); ("internationalPrefix", "00"); ("mobileNumberPortableRegion", "true")]
  ++ st "availableFormats" []
  ++ st "numberFormat" [("pattern", "(\d{4})")]
  ++ tx "leadingDigits" "905"
  ++ tx "format" "$1"
  ++ tx "intlFormat" "NA"
  ++ en "numberFormat"
  ++ st "numberFormat" [("pattern", "(\d{6})")]
  ++ tx "leadingDigits" "[79]9"
  ++ tx "format" "$1"
  ++ tx "intlFormat" "NA"
  ++ en "numberFormat"
  ++ st "numberFormat" [("pattern", "(\d{3})(\d{3})(\d{3})")]
  ++ tx "leadingDigits" "[89]00"
  ++ tx "format" "$1 $2 $3"
  ++ en "numberFormat"
  ++ st "numberFormat" [("pattern", "(\d{3})(\d{2})(\d{2})(\d{2})")]
  ++ tx "leadingDigits" "[5-9]"
  ++ tx "format" "$1 $2 $3 $4"
  ++ en "numberFormat"
  ++ en "availableFormats"
  ++ st "generalDesc" []
  ++ tx "nationalNumberPattern" "[5-9]\d{8}"
  ++ en "generalDesc"
  ++ st "fixedLine" []
  ++ em "possibleLengths" [("national", "9")]
  ++ tx "exampleNumber" "810123456"
  ++ tx "nationalNumberPattern" "96906(?:0[0-8]|1[1-9]|[2-9]\d)\d\d|9(?:69(?:0[0-57-9]|[1-9]\d)|73(?:[0-8]\d|9[1-9]))\d{4}|(?:8(?:[1356]\d|[28][0-8]|[47][1-9])|9(?:[135]\d|[268][0-8]|4[1-9]|7[124-9]))\d{6}"
  ++ en "fixedLine"
  ++ st "mobile" []
  ++ em "possibleLengths" [("national", "9")]
  ++ tx "exampleNumber" "612345678"
  ++ tx "nationalNumberPattern" "96906(?:09|10)\d\d|(?:590(?:10[0-2]|600)|97390\d)\d{3}|(?:6\d|7[1-48])\d{7}"
  ++ en "mobile"
  ++ st "tollFree" []
  ++ em "possibleLengths" [("national", "9")]
  ++ tx "exampleNumber" "800123456"
  ++ tx "nationalNumberPattern" "[89]00\d{6}"
  ++ en "tollFree"
  ++ st "premiumRate" []
  ++ em "possibleLengths" [("national", "9")]
  ++ tx "exampleNumber" "803123456"
  ++ tx "nationalNumberPattern" "80[367]\d{6}"
  ++ en "premiumRate"
  ++ st "sharedCost" []
  ++ em "possibleLengths" [("national", "9")]
  ++ tx "exampleNumber" "901123456"
  ++ tx "nationalNumberPattern" "90[12]\d{6}"
  ++ en "sharedCost"
  ++ st "personalNumber" []
  ++ em "possibleLengths" [("national", "9")]
  ++ tx "exampleNumber" "701234567"
  ++ tx "nationalNumberPattern" "70\d{7}"
  ++ en "personalNumber"
  ++ st "uan" []
  ++ em "possibleLengths" [("national", "9")]
  ++ tx "exampleNumber" "511234567"
  ++ tx "nationalNumberPattern" "51\d{7}"
  ++ en "uan"
  ++ en "territory".

Definition ev_67 : list event :=
  st "territory" [("id", "ET"); ("countryCode", "251"); ("internationalPrefix", "00"); ("nationalPrefix", "0")]
  ++ st "availableFormats" []
  ++ st "numberFormat" [("pattern", "(\d{2})(\d{3})(\d{4})"); ("nationalPrefixFormattingRule", "$NP$FG")]
  ++ tx "leadingDigits" "[1-57-9]"
  ++ tx "format" "$1 $2 $3"
  ++ en "numberFormat"
  ++ en "availableFormats"
  ++ st "generalDesc" []
  ++ tx "nationalNumberPattern" "(?:11|[2-57-9]\d)\d{7}"
  ++ en "generalDesc"
  ++ st "fixedLine" []
  ++ em "possibleLengths" [("national", "9"); ("localOnly", "7")]
  ++ tx "exampleNumber" "111112345"
  ++ tx "nationalNumberPattern" "(?:11(?:[124]\d\d|3(?:[0-79]\d|8[0-7])|5(?:[02-9]\d|1[0-57-9])|6(?:[02-79]\d|1[0-57-9]|8[0-8]))|2(?:2(?:11[1-9]|22[0-7]|33\d|44[1467]|66[1-68])|5(?:11[124-6]|33[2-8]|44[1467]|55[14]|66[1-3679]|77[124-79]|880))|3(?:3(?:11[0-46-8]|(?:22|55)[0-6]|33[0134689]|44[04]|66[01467])|4(?:44[0-8]|55[0-69]|66[0-3]|77[1-5]))|4(?:6(?:119|22[0-24-7]|33[1-5]|44[13-69]|55[14-689]|660|88[1-4])|7(?:(?:11|22)[1-9]|33[13-7]|44[13-6]|55[1-689]))|5(?:7(?:227|55[05]|(?:66|77)[14-8])|8(?:11[149]|22[013-79]|33[0-68]|44[013-8]|550|66[1-5]|77\d)))\d{4}"
  ++ en "fixedLine"
  ++ st "mobile" []
  ++ em "possibleLengths" [("national", "9")]
  ++ tx "exampleNumber" "911234567"
  ++ tx "nationalNumberPattern" "700[1-9]\d{5}|(?:7(?:0[1-9]|1[0-8]|2[1-35-79]|3\d|77|86|99)|(?:8[01]|9\d)\d)\d{6}"
  ++ en "mobile"
  ++ en "territory".

Definition ev_68 : list event :=
  st "territory" [("id", "FI"); ("mainCountryForCode", "true"); ("countryCode", "358"); ("leadingDigits", "1[03-79]|[2-9]"); ("preferredInternationalPrefix", "00"); ("internationalPrefix", "00|99(?:[01469]|5(?:[14]1|3[23]|5[59]|77|88|9[09]))"); ("nationalPrefix", "0"); ("mobileNumberPortableRegion", "true")]
  ++ st "availableFormats" []
  ++ st "numberFormat" [("pattern", "(\d{5})"); ("nationalPrefixFormattingRule", "$NP$FG")]
  ++ tx "leadingDigits" "75[12]"
  ++ tx "format" "$1"
  ++ tx "intlFormat" "NA"
  ++ en "numberFormat"
  ++ st "numberFormat" [("pattern", "(\d{5})"); ("nationalPrefixFormattingRule", "$NP$FG")]
  ++ tx "leadingDigits" "20[2-59]"
  ++ tx "format" "$1"
  ++ en "numberFormat"
  ++ st "numberFormat" [("pattern", "(\d{6})")]
  ++ tx "leadingDigits" "11"
  ++ tx "format" "$1"
  ++ tx "intlFormat" "NA"
  ++ en "numberFormat"
  ++ st "numberFormat" [("pattern", "(\d{3})(\d{3,7})"); ("nationalPrefixFormattingRule", "$NP$FG")]
  ++ tx "leadingDigits" "(?:[1-3]0|[68])0|70[07-9]"
  ++ tx "format" "$1 $2"
  ++ en "numberFormat"
  ++ st "numberFormat" [("pattern", "(\d{2})(\d{4,8})"); ("nationalPrefixFormattingRule", "$NP$FG")]
  ++ tx "leadingDigits" "[14]|2[09]|50|7[135]"
  ++ tx "format" "$1 $2"
  ++ en "numberFormat"
  ++ st "numberFormat" [("pattern", "(\d{2})(\d{6,10})"); ("nationalPrefixFormattingRule", "$NP$FG")]
  ++ tx "leadingDigits" "7"
  ++ tx "format" "$1 $2"
  ++ en "numberFormat"
  ++ st "numberFormat" [("pattern", "(\d)(\d{4,9})"); ("nationalPrefixFormattingRule", "$NP$FG")]
  ++ tx "leadingDigits" "(?:19|[2568])[1-8]|3(?:0[1-9]|[1-9])|9"
  ++ tx "format" "$1 $2"
  ++ en "numberFormat"
  ++ en "availableFormats"
  ++ st "generalDesc" []
  ++ tx "nationalNumberPattern" "[1-35689]\d{4}|7\d{10,11}|(?:[124-7]\d|3[0-46-9])\d{8}|[1-9]\d{5,8}"
  ++ en "generalDesc"
  ++ st "noInternationalDialling" []
  ++ em "possibleLengths" [("national", "[5-12]")]
  ++ tx "nationalNumberPattern" "20(?:2[023]|9[89])\d{1,6}|(?:60[12]\d|7099)\d{4,5}|(?:606|7(?:0[78]|1|3\d))\d{7}|(?:[1-3]00|7(?:0[1-5]\d\d|5[03-9]))\d{3,7}"
  ++ en "noInternationalDialling"
  ++ st "fixedLine" []
  ++ em "possibleLengths" [("national", "[5-9]")]
  ++ tx "exampleNumber" "131234567"
  ++ tx "nationalNumberPattern" "1[3-7][1-8]\d{3,6}|(?:19[1-8]|[23568][1-8]\d|9(?:00|[1-8]\d))\d{2,6}"
  ++ en "fixedLine"
  ++ st "mobile" []
  ++ em "possibleLengths" [("national", "[6-10]")]
  ++ tx "exampleNumber" "412345678"
  ++ tx "nationalNumberPattern" "4946\d{2,6}|(?:4[0-8]|50)\d{4,8}"
  ++ en "mobile"
  ++ st "tollFree" []
  ++ em "possibleLengths" [("national", "[7-9]")]
  ++ tx "exampleNumber" "800123456"
  ++ tx "nationalNumberPattern" "800\d{4,6}"
  ++ en "tollFree"
  ++ st "premiumRate" []
  ++ em "possibleLengths" [("national", "8,9")]
  ++ tx "exampleNumber" "600123456"
  ++ tx "nationalNumberPattern" "[67]00\d{5,6}"
  ++ en "premiumRate"
  ++ st "uan" []
  ++ em "possibleLengths" [("national", "[5-12]")]
  ++ tx "exampleNumber" "10112345"
  ++ tx "nationalNumberPattern" "20\d{4,8}|60[12]\d{5,6}|7(?:099\d{4,5}|5[03-9]\d{3,7})|20[2-59]\d\d|(?:606|7(?:0[78]|1|3\d))\d{7}|(?:10|29|3[09]|70[1-5]\d)\d{4,8}"
  ++ en "uan"
  ++ en "territory".

Definition ev_69 : list event :=
  st "territory" [("id", "FJ"); ("countryCode", "679"); ("preferredInternationalPrefix", "00"); ("internationalPrefix", "0(?:0|52)")]
  ++ st "availableFormats" []
  ++ st "numberFormat" [("pattern", "(\d{3})(\d{4})")]
  ++ tx "leadingDigits" "[235-9]|45"
  ++ tx "format" "$1 $2"
  ++ en "numberFormat"
  ++ st "numberFormat" [("pattern", "(\d{4})(\d{3})(\d{4})")]
  ++ tx "leadingDigits" "0"
  ++ tx "format" "$1 $2 $3"
  ++ en "numberFormat"
  ++ en "availableFormats"
  ++ st "generalDesc" []
  ++ tx "nationalNumberPattern" "45\d{5}|(?:0800\d|[235-9])\d{6}"
  ++ en "generalDesc"
  ++ st "fixedLine" []
  ++ em "possibleLengths" [("national", "7")]
  ++ tx "exampleNumber" "3212345"
  ++ tx "nationalNumberPattern" "603\d{4}|(?:3[0-5]|6[25-7]|8[58])\d{5}"
  ++ en "fixedLine"
  ++ st "mobile" []
  ++ em "possibleLengths" [("national", "7")]
  ++ tx "exampleNumber" "7012345"
  ++ tx "nationalNumberPattern" "(?:[279]\d|45|5[01568]|8[034679])\d{5}"
  ++ en "mobile"
  ++ st "tollFree" []
  ++ em "possibleLengths" [("national", "11")]
  ++ tx "exampleNumber" "08001234567"
  ++ tx "nationalNumberPattern" "0800\d{7}"
  ++ en "tollFree"
  ++ en "territory".

Definition ev_70 : list event :=
  st "territory" [("id", "FK"); ("countryCode", "500"); ("internationalPrefix", "00")]
  ++ st "generalDesc" []
  ++ tx "nationalNumberPattern" "[2-7]\d{4}"
  ++ en "generalDesc"
  ++ st "fixedLine" []
  ++ em "possibleLengths" [("national", "5")]
  ++ tx "exampleNumber" "31234"
  ++ tx "nationalNumberPattern" "[2-47]\d{4}"
  ++ en "fixedLine"
  ++ st "mobile" []
  ++ em "possibleLengths" [("national", "5")]
  ++ tx "exampleNumber" "51234"
  ++ tx "nationalNumberPattern" "[56]\d{4}"
  ++ en "mobile"
  ++ en "territory".

Definition ev_71 : list event :=
  st "territory" [("id", "FM"); ("countryCode", "691"); ("internationalPrefix", "00")]
  ++ st "availableFormats" []
  ++ st "numberFormat" [("pattern", "(\d{3})(\d{4})")]
  ++ tx "leadingDigits" "[389]"
  ++ tx "format" "$1 $2"
  ++ en "numberFormat"
  ++ en "availableFormats"
  ++ st "generalDesc" []
  ++ tx "nationalNumberPattern" "(?:[39]\d\d|820)\d{4}"
  ++ en "generalDesc"
  ++ st "fixedLine" []
  ++ em "possibleLengths" [("national", "7")]
  ++ tx "exampleNumber" "3201234"
  ++ tx "nationalNumberPattern" "31(?:00[67]|208|309)\d\d|(?:3(?:[2357]0[1-9]|602|804|905)|(?:820|9[2-6]\d)\d)\d{3}"
  ++ en "fixedLine"
  ++ st "mobile" []
  ++ em "possibleLengths" [("national", "7")]
  ++ tx "exampleNumber" "3501234"
  ++ tx "nationalNumberPattern" "31(?:00[67]|208|309)\d\d|(?:3(?:[2357]0[1-9]|602|804|905)|(?:820|9[2-7]\d)\d)\d{3}"
  ++ en "mobile"
  ++ en "territory".

Definition ev_72 : list event :=
  st "territory" [("id", "FO"); ("countryCode", "298"); ("internationalPrefix", "00"); ("nationalPrefixForParsing", "(10(?:01|[12]0|88))")]
  ++ st "availableFormats" []
  ++ st "numberFormat" [("pattern", "(\d{6})"); ("carrierCodeFormattingRule", "$CC $FG")]
  ++ tx "leadingDigits" "[2-9]"
  ++ tx "format" "$1"
  ++ en "numberFormat"
  ++ en "availableFormats"
  ++ st "generalDesc" []
  ++ tx "nationalNumberPattern" "[2-9]\d{5}"
  ++ en "generalDesc"
  ++ st "fixedLine" []
  ++ em "possibleLengths" [("national", "6")]
  ++ tx "exampleNumber" "201234"
  ++ tx "nationalNumberPattern" "(?:20|[34]\d|8[19])\d{4}"
  ++ en "fixedLine"
  ++ st "mobile" []
  ++ em "possibleLengths" [("national", "6")]
  ++ tx "exampleNumber" "211234"
  ++ tx "nationalNumberPattern" "(?:[27][1-9]|5\d|9[16])\d{4}"
  ++ en "mobile"
  ++ st "tollFree" []
  ++ em "possibleLengths" [("national", "6")]
  ++ tx "exampleNumber" "802123"
  ++ tx "nationalNumberPattern" "80[257-9]\d{3}"
  ++ en "tollFree"
  ++ st "premiumRate" []
  ++ em "possibleLengths" [("national", "6")]
  ++ tx "exampleNumber" "901123"
  ++ tx "nationalNumberPattern" "90(?:[13-5][15-7]|2[125-7]|9\d)\d\d"
  ++ en "premiumRate"
  ++ st "voip" []
  ++ em "possibleLengths" [("national", "6")]
  ++ tx "exampleNumber" "601234"
  ++ tx "nationalNumberPattern" "(?:6[0-36]|88)\d{4}"
  ++ en "voip"
  ++ en "territory".

Definition ev_73 : list event :=
  st "territory" [("id", "FR"); ("countryCode", "33"); ("internationalPrefix", "00"); ("nationalPrefix", "0"); ("mobileNumberPortableRegion", "true")]
  ++ st "availableFormats" []
  ++ st "numberFormat" [("pattern", "(\d{4})")]
  ++ tx "leadingDigits" "10"
  ++ tx "format" "$1"
  ++ tx "intlFormat" "NA"
  ++ en "numberFormat"
  ++ st "numberFormat" [("pattern", "(\d{3})(\d{3})")]
  ++ tx "leadingDigits" "1"
  ++ tx "format" "$1 $2"
  ++ tx "intlFormat" "NA"
  ++ en "numberFormat"
  ++ st "numberFormat" [("pattern", "(\d{3})(\d{2})(\d{2})(\d{2})"); ("nationalPrefixFormattingRule", "$NP $FG")]
  ++ tx "leadingDigits" "8"
  ++ tx "format" "$1 $2 $3 $4"
  ++ en "numberFormat"
  ++ st "numberFormat" [("pattern", "(\d)(\d{2})(\d{2})(\d{2})(\d{2})"); ("nationalPrefixFormattingRule", "$NP$FG")]
  ++ tx "leadingDigits" "[1-79]"
  ++ tx "format" "$1 $2 $3 $4 $5"
  ++ en "numberFormat"
  ++ en "availableFormats"
  ++ st "generalDesc" []
  ++ tx "nationalNumberPattern" "[1-9]\d{8}"
  ++ en "generalDesc"
  ++ st "fixedLine" []
  ++ em "possibleLengths" [("national", "9")]
  ++ tx "exampleNumber" "123456789"
  ++ tx "nationalNumberPattern" "(?:26[013-9]|59[1-35-9])\d{6}|(?:[13]\d|2[0-57-9]|4[1-9]|5[0-8])\d{7}"
  ++ en "fixedLine"
  ++ st "mobile" []
  ++ em "possibleLengths" [("national", "9")]
  ++ tx "exampleNumber" "612345678"
  ++ tx "nationalNumberPattern" "(?:6(?:[0-24-8]\d|3[0-8]|9[589])|7[3-9]\d)\d{6}"
  ++ en "mobile"
  ++ st "tollFree" []
  ++ em "possibleLengths" [("national", "9")]
  ++ tx "exampleNumber" "801234567"
  ++ tx "nationalNumberPattern" "80[0-5]\d{6}"
  ++ en "tollFree"
  ++ st "premiumRate" []
  ++ em "possibleLengths" [("national", "9")]
  ++ tx "exampleNumber" "891123456"
  ++ tx "nationalNumberPattern" "836(?:0[0-36-9]|[1-9]\d)\d{4}|8(?:1[2-9]|2[2-47-9]|3[0-57-9]|[569]\d|8[0-35-9])\d{6}"
  ++ en "premiumRate"
  ++ st "sharedCost" []
  ++ em "possibleLengths" [("national", "9")]
  ++ tx "exampleNumber" "884012345"
  ++ tx "nationalNumberPattern" "8(?:1[01]|2[0156]|4[024]|84)\d{6}"
  ++ en "sharedCost"
  ++ st "voip" []
  ++ em "possibleLengths" [("national", "9")]
  ++ tx "exampleNumber" "912345678"
  ++ tx "nationalNumberPattern" "9\d{8}"
  ++ en "voip"
  ++ st "uan" []
  ++ em "possibleLengths" [("national", "9")]
  ++ tx "exampleNumber" "806123456"
  ++ tx "nationalNumberPattern" "80[6-9]\d{6}"
  ++ en "uan"
  ++ en "territory".

Definition ev_74 : list event :=
  st "territory" [("id", "GA"); ("countryCode", "241"); ("internationalPrefix", "00"); ("nationalPrefixForParsing", "0(11\d{6}|60\d{6}|61\d{6}|6[256]\d{6}|7[467]\d{6})"); ("nationalPrefixTransformRule", "$1")]
  ++ st "availableFormats" []
  ++ st "numberFormat" [("pattern", "(\d)(\d{2})(\d{2})(\d{2})"); ("nationalPrefixFormattingRule", "0$FG")]
  ++ tx "leadingDigits" "[2-7]"
  ++ tx "format" "$1 $2 $3 $4"
  ++ en "numberFormat"
  ++ st "numberFormat" [("pattern", "(\d{2})(\d{2})(\d{2})(\d{2})")]
  ++ tx "leadingDigits" "0"
  ++ tx "format" "$1 $2 $3 $4"
  ++ en "numberFormat"
  ++ st "numberFormat" [("pattern", "(\d{2})(\d{2})(\d{2})(\d{2})"); ("nationalPrefixFormattingRule", "0$FG")]
  ++ tx "leadingDigits" "11|[67]"
  ++ tx "format" "$1 $2 $3 $4"
  ++ en "numberFormat"
  ++ en "availableFormats"
  ++ st "generalDesc" []
  ++ tx "nationalNumberPattern" "(?:[067]\d|11)\d{6}|[2-7]\d{6}"
  ++ en "generalDesc"
  ++ st "fixedLine" []
  ++ em "possibleLengths" [("national", "8")]
  ++ tx "exampleNumber" "01441234"
  ++ tx "nationalNumberPattern" "[01]1\d{6}"
  ++ en "fixedLine"
  ++ st "mobile" []
  ++ em "possibleLengths" [("national", "7,8")]
  ++ tx "exampleNumber" "06031234"
  ++ tx "nationalNumberPattern" "(?:(?:0[2-7]|7[467])\d|6(?:0[0-4]|10|[256]\d))\d{5}|[2-7]\d{6}"
  ++ en "mobile"
  ++ en "territory".

Definition ev_75 : list event :=
  st "territory" [("id", "GB"); ("mainCountryForCode", "true"); ("countryCode", "44"); ("internationalPrefix", "00"); ("nationalPrefix", "0"); ("nationalPrefixForParsing", "0|180020"); ("preferredExtnPrefix", " x"); ("mobileNumberPortableRegion", "true")]
  ++ st "availableFormats" []
  ++ st "numberFormat" [("pattern", "(\d{3})(\d{4})"); ("nationalPrefixFormattingRule", "$NP$FG")]
  ++ tx "leadingDigits" "800"
  ++ tx "leadingDigits" "8001"
  ++ tx "leadingDigits" "80011"
  ++ tx "leadingDigits" "800111"
  ++ tx "leadingDigits" "8001111"
  ++ tx "format" "$1 $2"
  ++ en "numberFormat"
  ++ st "numberFormat" [("pattern", "(\d{3})(\d{2})(\d{2})"); ("nationalPrefixFormattingRule", "$NP$FG")]
  ++ tx "leadingDigits" "845"
  ++ tx "leadingDigits" "8454"
  ++ tx "leadingDigits" "84546"
  ++ tx "leadingDigits" "845464"
  ++ tx "format" "$1 $2 $3"
  ++ en "numberFormat"
  ++ st "numberFormat" [("pattern", "(\d{3})(\d{6})"); ("nationalPrefixFormattingRule", "$NP$FG")]
  ++ tx "leadingDigits" "800"
  ++ tx "format" "$1 $2"
  ++ en "numberFormat"
  ++ st "numberFormat" [("pattern", "(\d{5})(\d{4,5})"); ("nationalPrefixFormattingRule", "$NP$FG")]
  ++ tx "leadingDigits" "1(?:38|5[23]|69|76|94)"
  ++ tx "leadingDigits" "1(?:(?:38|69)7|5(?:24|39)|768|946)"
  ++ tx "leadingDigits" "1(?:3873|5(?:242|39[4-6])|(?:697|768)[347]|9467)"
  ++ tx "format" "$1 $2"
  ++ en "numberFormat"
  ++ st "numberFormat" [("pattern", "(\d{4})(\d{5,6})"); ("nationalPrefixFormattingRule", "$NP$FG")]
  ++ tx "leadingDigits" "1(?:[2-69][02-9]|[78])"
  ++ tx "format" "$1 $2"
  ++ en "numberFormat"
  ++ st "numberFormat" [("pattern", "(\d{2})(\d{4})(\d{4})"); ("nationalPrefixFormattingRule", "$NP$FG")]
  ++ tx "leadingDigits" "[25]|7(?:0|6[02-9])"
  ++ tx "leadingDigits" "[25]|7(?:0|6(?:[03-9]|2[356]))"
  ++ tx "format" "$1 $2 $3"
  ++ en "numberFormat"
  ++ st "numberFormat" [("pattern", "(\d{4})(\d{6})"); ("nationalPrefixFormattingRule", "$NP$FG")]
  ++ tx "leadingDigits" "7"
  ++ tx "format" "$1 $2"
  ++ en "numberFormat"
  ++ st "numberFormat" [("pattern", "(\d{3})(\d{3})(\d{4})"); ("nationalPrefixFormattingRule", "$NP$FG")]
  ++ tx "leadingDigits" "[1389]"
  ++ tx "format" "$1 $2 $3"
  ++ en "numberFormat"
  ++ en "availableFormats"
  ++ st "generalDesc" []
  ++ tx "nationalNumberPattern" "[1-357-9]\d{9}|[18]\d{8}|8\d{6}"
  ++ en "generalDesc"
  ++ st "fixedLine" []
  ++ em "possibleLengths" [("national", "9,10"); ("localOnly", "[4-8]")]
  ++ tx "exampleNumber" "1212345678"
  ++ tx "nationalNumberPattern" "(?:1(?:1(?:3(?:[0-58]\d\d|73[0-5])|4(?:(?:[0-5]\d|70)\d|69[7-9])|(?:(?:5[0-26-9]|[78][0-49])\d|6(?:[0-4]\d|5[01]))\d)|(?:2(?:(?:0[024-9]|2[3-9]|3[3-79]|4[1-689]|[58][02-9]|6[0-47-9]|7[013-9]|9\d)\d|1(?:[0-7]\d|8[0-3]))|(?:3(?:0\d|1[0-8]|[25][02-9]|3[02-579]|[468][0-46-9]|7[1-35-79]|9[2-578])|4(?:0[03-9]|[137]\d|[28][02-57-9]|4[02-69]|5[0-8]|[69][0-79])|5(?:0[1-35-9]|[16]\d|2[024-9]|3[015689]|4[02-9]|5[03-9]|7[0-35-9]|8[0-468]|9[0-57-9])|6(?:0[034689]|1\d|2[0-35689]|[38][013-9]|4[1-467]|5[0-69]|6[13-9]|7[0-8]|9[0-24578])|7(?:0[0246-9]|2\d|3[0236-8]|4[03-9]|5[0-46-9]|6[013-9]|7[0-35-9]|8[024-9]|9[02-9])|8(?:0[35-9]|2[1-57-9]|3[02-578]|4[0-578]|5[124-9]|6[2-69]|7\d|8[02-9]|9[02569])|9(?:0[02-589]|[18]\d|2[02-689]|3[1-57-9]|4[2-9]|5[0-579]|6[2-47-9]|7[0-24578]|9[2-57]))\d)\d)|2(?:0[013478]|3[0189]|4[017]|8[0-46-9]|9[0-2])\d{3})\d{4}|1(?:2(?:0(?:46[1-4]|87[2-9])|545[1-79]|76(?:2\d|3[1-8]|6[1-6])|9(?:7(?:2[0-4]|3[2-5])|8(?:2[2-8]|7[0-47-9]|8[3-5])))|3(?:6(?:38[2-5]|47[23])|8(?:47[04-9]|64[0157-9]))|4(?:044[1-7]|20(?:2[23]|8\d)|6(?:0(?:30|5[2-57]|6[1-8]|7[2-8])|140)|8(?:052|87[1-3]))|5(?:2(?:4(?:3[2-79]|6\d)|76\d)|6(?:26[06-9]|686))|6(?:06(?:4\d|7[4-79])|295[5-7]|35[34]\d|47(?:24|61)|59(?:5[08]|6[67]|74)|9(?:55[0-4]|77[23]))|7(?:26(?:6[13-9]|7[0-7])|(?:442|688)\d|50(?:2[0-3]|[3-68]2|76))|8(?:27[56]\d|37(?:5[2-5]|8[239])|843[2-58])|9(?:0(?:0(?:6[1-8]|85)|52\d)|3583|4(?:66[1-8]|9(?:2[01]|81))|63(?:23|3[1-4])|9561))\d{3}"
  ++ en "fixedLine"
  ++ st "mobile" []
  ++ em "possibleLengths" [("national", "10")]
  ++ tx "exampleNumber" "7400123456"
  ++ tx "nationalNumberPattern" "7(?:457[0-57-9]|700[01]|911[028])\d{5}|7(?:[1-3]\d\d|4(?:[0-46-9]\d|5[0-689])|5(?:0[0-8]|[13-9]\d|2[0-35-9])|7(?:0[1-9]|[1-7]\d|8[02-9]|9[0-689])|8(?:[014-9]\d|[23][0-8])|9(?:[024-9]\d|1[02-9]|3[0-689]))\d{6}"
  ++ en "mobile"
  ++ st "pager" []
  ++ em "possibleLengths" [("national", "10")]
  ++ tx "exampleNumber" "7640123456"
  ++ tx "nationalNumberPattern" "76(?:464|652)\d{5}|76(?:0[0-28]|2[356]|34|4[01347]|5[49]|6[0-369]|77|8[14]|9[139])\d{6}"
  ++ en "pager"
  ++ st "tollFree" []
  ++ em "possibleLengths" [("national", "7,9,10")]
  ++ tx "exampleNumber" "8001234567"
  ++ tx "nationalNumberPattern" "80[08]\d{7}|800\d{6}|8001111"
  ++ en "tollFree"
  ++ st "premiumRate" []
  ++ em "possibleLengths" [("national", "7,10")]
  ++ tx "exampleNumber" "9012345678"
  ++ tx "nationalNumberPattern" "(?:8(?:4[2-5]|7[0-3])|9(?:[01]\d|8[2-49]))\d{7}|845464\d"
  ++ en "premiumRate"
  ++ st "personalNumber" []
  ++ em "possibleLengths" [("national", "10")]
  ++ tx "exampleNumber" "7012345678"
  ++ tx "nationalNumberPattern" "70\d{8}"
  ++ en "personalNumber"
  ++ st "voip" []
  ++ em "possibleLengths" [("national", "10")]
  ++ tx "exampleNumber" "5612345678"
  ++ tx "nationalNumberPattern" "56\d{8}"
  ++ en "voip"
  ++ st "uan" []
  ++ em "possibleLengths" [("national", "10")]
  ++ tx "exampleNumber" "5512345678"
  ++ tx "nationalNumberPattern" "(?:3[0347]|55)\d{8}"
  ++ en "uan"
  ++ en "territory".

Definition ev_76 : list event :=
  st "territory" [("id", "GD"); ("countryCode", "1"); ("leadingDigits", "473"); ("internationalPrefix", "011"); ("nationalPrefix", "1"); ("nationalPrefixForParsing", "([2-9]\d{6})$|1"); ("nationalPrefixTransformRule", "473$1"); ("mobileNumberPortableRegion", "true")]
  ++ st "generalDesc" []
  ++ tx "nationalNumberPattern" "(?:473|[58]\d\d|900)\d{7}"
  ++ en "generalDesc"
  ++ st "fixedLine" []
  ++ em "possibleLengths" [("national", "10"); ("localOnly", "7")]
  ++ tx "exampleNumber" "4732691234"
  ++ tx "nationalNumberPattern" "473(?:2(?:3[0-2]|69)|3(?:2[89]|86)|4(?:[06]8|3[5-9]|4[0-4]|5[59]|73|90)|63[68]|7(?:58|84)|800|938)\d{4}"
  ++ en "fixedLine"
  ++ st "mobile" []
  ++ em "possibleLengths" [("national", "10"); ("localOnly", "7")]
  ++ tx "exampleNumber" "4734031234"
  ++ tx "nationalNumberPattern" "473(?:4(?:0[2-79]|1[04-9]|2[0-5]|49|5[6-8])|5(?:2[01]|3[3-8])|901)\d{4}"
  ++ en "mobile"
  ++ st "tollFree" []
  ++ em "possibleLengths" [("national", "10")]
  ++ tx "exampleNumber" "8002123456"
  ++ tx "nationalNumberPattern" "8(?:00|33|44|55|66|77|88)[2-9]\d{6}"
  ++ en "tollFree"
  ++ st "premiumRate" []
  ++ em "possibleLengths" [("national", "10")]
  ++ tx "exampleNumber" "9002123456"
  ++ tx "nationalNumberPattern" "900[2-9]\d{6}"
  ++ en "premiumRate"
  ++ st "personalNumber" []
  ++ em "possibleLengths" [("national", "10")]
  ++ tx "exampleNumber" "5002345678"
  ++ tx "nationalNumberPattern" "52(?:3(?:[2-46-9][02-9]\d|5(?:[02-46-9]\d|5[0-46-9]))|4(?:[2-478][02-9]\d|5(?:[034]\d|2[024-9]|5[0-46-9])|6(?:0[1-9]|[2-9]\d)|9(?:[05-9]\d|2[0-5]|49)))\d{4}|52[34][2-9]1[02-9]\d{4}|5(?:00|2[125-9]|3[23]|44|66|77|88)[2-9]\d{6}"
  ++ en "personalNumber"
  ++ en "territory".

Definition ev_77 : list event :=
  st "territory" [("id", "GE"); ("countryCode", "995"); ("internationalPrefix", "00"); ("nationalPrefix", "0"); ("mobileNumberPortableRegion", "true")]
  ++ st "availableFormats" []
  ++ st "numberFormat" [("pattern", "(\d{3})(\d{3})(\d{3})"); ("nationalPrefixFormattingRule", "$NP$FG")]
  ++ tx "leadingDigits" "70"
  ++ tx "format" "$1 $2 $3"
  ++ en "numberFormat"
  ++ st "numberFormat" [("pattern", "(\d{2})(\d{3})(\d{2})(\d{2})"); ("nationalPrefixFormattingRule", "$NP$FG")]
  ++ tx "leadingDigits" "32"
  ++ tx "format" "$1 $2 $3 $4"
  ++ en "numberFormat"
  ++ st "numberFormat" [("pattern", "(\d{3})(\d{2})(\d{2})(\d{2})")]
  ++ tx "leadingDigits" "[57]"
  ++ tx "format" "$1 $2 $3 $4"
  ++ en "numberFormat"
  ++ st "numberFormat" [("pattern", "(\d{3})(\d{2})(\d{2})(\d{2})"); ("nationalPrefixFormattingRule", "$NP$FG")]
  ++ tx "leadingDigits" "[348]"
  ++ tx "format" "$1 $2 $3 $4"
  ++ en "numberFormat"
  ++ en "availableFormats"
  ++ st "generalDesc" []
  ++ tx "nationalNumberPattern" "(?:[3-57]\d\d|800)\d{6}"
  ++ en "generalDesc"
  ++ st "noInternationalDialling" []
  ++ em "possibleLengths" [("national", "9")]
  ++ tx "nationalNumberPattern" "70[67]\d{6}"
  ++ en "noInternationalDialling"
  ++ st "fixedLine" []
  ++ em "possibleLengths" [("national", "9"); ("localOnly", "6,7")]
  ++ tx "exampleNumber" "322123456"
  ++ tx "nationalNumberPattern" "(?:3(?:[256]\d|4[124-9]|7[0-4])|4(?:1\d|2[2-7]|3[1-79]|4[2-8]|7[239]|9[1-7]))\d{6}"
  ++ en "fixedLine"
  ++ st "mobile" []
  ++ em "possibleLengths" [("national", "9")]
  ++ tx "exampleNumber" "555123456"
  ++ tx "nationalNumberPattern" "5(?:(?:(?:0555|1(?:[17]77|555))[5-9]|757(?:7[7-9]|8[01]))\d|22252[0-4])\d\d|5(?:0(?:0(?:1[09]|70)|505)|1(?:0[01]0|1(?:07|33|51))|2(?:0[02]0|2[25]2)|3(?:0[03]0|3[35]3)|(?:40[04]|900)0|5222)[0-4]\d{3}|(?:5(?:0(?:0(?:0\d|1[12]|22|3[0-6]|44|5[05]|77|88|9[09])|(?:[14]\d|77)\d|22[02])|1(?:1(?:[03][01]|[124]\d|5[2-6]|7[0-6])|4\d\d)|[23]555|4(?:4\d\d|555)|5(?:[0157-9]\d\d|200|333|4(?:44|55))|6[89]\d\d|7(?:(?:[0147-9]\d|22)\d|5(?:00|[57]5))|8(?:0(?:[018]\d|2[0-4])|5(?:55|8[89])|8(?:55|88))|9(?:090|[1-35-9]\d\d))|790\d\d)\d{4}"
  ++ en "mobile"
  ++ st "tollFree" []
  ++ em "possibleLengths" [("national", "9")]
  ++ tx "exampleNumber" "800123456"
  ++ tx "nationalNumberPattern" "800\d{6}"
  ++ en "tollFree"
  ++ st "voip" []
  ++ em "possibleLengths" [("national", "9")]
  ++ tx "exampleNumber" "706123456"
  ++ tx "nationalNumberPattern" "70[67]\d{6}"
  ++ en "voip"
  ++ en "territory".

Definition ev_78 : list event :=
  st "territory" [("id", "GF"); ("countryCode", "594"); ("internationalPrefix", "00"); ("nationalPrefix", "0"); ("mobileNumberPortableRegion", "true")]
  ++ st "availableFormats" []
  ++ st "numberFormat" [("pattern", "(\d{3})(\d{2})(\d{2})(\d{2})"); ("nationalPrefixFormattingRule", "$NP$FG")]
  ++ tx "leadingDigits" "[5-7]|80[6-9]|9[47]"
  ++ tx "format" "$1 $2 $3 $4"
  ++ en "numberFormat"
  ++ st "numberFormat" [("pattern", "(\d{3})(\d{2})(\d{2})(\d{2})"); ("nationalPrefixFormattingRule", "$NP$FG")]
  ++ tx "leadingDigits" "[89]"
  ++ tx "format" "$1 $2 $3 $4"
  ++ en "numberFormat"
  ++ en "availableFormats"
  ++ st "generalDesc" []
  ++ tx "nationalNumberPattern" "(?:694\d|7093)\d{5}|(?:59|[89]\d)\d{7}"
  ++ en "generalDesc"
  ++ st "fixedLine" []
  ++ em "possibleLengths" [("national", "9")]
  ++ tx "exampleNumber" "594101234"
  ++ tx "nationalNumberPattern" "(?:59(?:4(?:[02-49]\d|1[0-5]|5[6-9]|6[0-3]|80)|88\d)|80[6-9]\d\d)\d{4}"
  ++ en "fixedLine"
  ++ st "mobile" []
  ++ em "possibleLengths" [("national", "9")]
  ++ tx "exampleNumber" "694201234"
  ++ tx "nationalNumberPattern" "(?:694(?:[0-249]\d|3[0-8])|7093[0-3])\d{4}"
  ++ en "mobile"
  ++ st "tollFree" []
  ++ em "possibleLengths" [("national", "9")]
  ++ tx "exampleNumber" "800012345"
  ++ tx "nationalNumberPattern" "80[0-5]\d{6}"
  ++ en "tollFree"
  ++ st "premiumRate" []
  ++ em "possibleLengths" [("national", "9")]
  ++ tx "exampleNumber" "890123456"
  ++ tx "nationalNumberPattern" "8[129]\d{7}"
  ++ en "premiumRate"
  ++ st "voip" []
  ++ em "possibleLengths" [("national", "9")]
  ++ tx "exampleNumber" "976012345"
  ++ tx "nationalNumberPattern" "9(?:(?:396|76\d)\d|476[0-6])\d{4}"
  ++ en "voip"
  ++ en "territory".

Definition ev_79 : list event :=
  st "territory" [("id", "GG"); ("countryCode", "44"); ("internationalPrefix", "00"); ("nationalPrefix", "0"); ("nationalPrefixForParsing", "([25-9]\d{5})$|0|180020"); ("nationalPrefixTransformRule", "1481$1")]
  ++ st "generalDesc" []
  ++ tx "nationalNumberPattern" "(?:1481|[357-9]\d{3})\d{6}|8\d{6}(?:\d{2})?"
  ++ en "generalDesc"
  ++ st "fixedLine" []
  ++ em "possibleLengths" [("national", "10"); ("localOnly", "6")]
  ++ tx "exampleNumber" "1481256789"
  ++ tx "nationalNumberPattern" "1481[25-9]\d{5}"
  ++ en "fixedLine"
  ++ st "mobile" []
  ++ em "possibleLengths" [("national", "10")]
  ++ tx "exampleNumber" "7781123456"
  ++ tx "nationalNumberPattern" "7(?:(?:781|839)\d|911[17])\d{5}"
  ++ en "mobile"
  ++ st "pager" []
  ++ em "possibleLengths" [("national", "10")]
  ++ tx "exampleNumber" "7640123456"
  ++ tx "nationalNumberPattern" "76(?:464|652)\d{5}|76(?:0[0-28]|2[356]|34|4[01347]|5[49]|6[0-369]|77|8[14]|9[139])\d{6}"
  ++ en "pager"
  ++ st "tollFree" []
  ++ em "possibleLengths" [("national", "7,9,10")]
  ++ tx "exampleNumber" "8001234567"
  ++ tx "nationalNumberPattern" "80[08]\d{7}|800\d{6}|8001111"
  ++ en "tollFree"
  ++ st "premiumRate" []
  ++ em "possibleLengths" [("national", "7,10")]
  ++ tx "exampleNumber" "9012345678"
  ++ tx "nationalNumberPattern" "(?:8(?:4[2-5]|7[0-3])|9(?:[01]\d|8[0-3]))\d{7}|845464\d"
  ++ en "premiumRate"
  ++ st "personalNumber" []
  ++ em "possibleLengths" [("national", "10")]
  ++ tx "exampleNumber" "7012345678"
  ++ tx "nationalNumberPattern" "70\d{8}"
  ++ en "personalNumber"
  ++ st "voip" []
  ++ em "possibleLengths" [("national", "10")]
  ++ tx "exampleNumber" "5612345678"
  ++ tx "nationalNumberPattern" "56\d{8}"
  ++ en "voip"
  ++ st "uan" []
  ++ em "possibleLengths" [("national", "10")]
  ++ tx "exampleNumber" "5512345678"
  ++ tx "nationalNumberPattern" "(?:3[0347]|55)\d{8}"
  ++ en "uan"
  ++ en "territory".

Definition ev_80 : list event :=
  st "territory" [("id", "GH"); ("countryCode", "233"); ("internationalPrefix", "00"); ("nationalPrefix", "0"); ("mobileNumberPortableRegion", "true")]
  ++ st "availableFormats" []
  ++ st "numberFormat" [("pattern", "(\d{3})(\d{4})")]
  ++ tx "leadingDigits" "[237]|8[0-2]"
  ++ tx "format" "$1 $2"
  ++ tx "intlFormat" "NA"
  ++ en "numberFormat"
  ++ st "numberFormat" [("pattern", "(\d{3})(\d{5})"); ("nationalPrefixFormattingRule", "$NP$FG")]
  ++ tx "leadingDigits" "8"
  ++ tx "format" "$1 $2"
  ++ en "numberFormat"
  ++ st "numberFormat" [("pattern", "(\d{2})(\d{3})(\d{4})"); ("nationalPrefixFormattingRule", "$NP$FG")]
  ++ tx "leadingDigits" "[2358]"
  ++ tx "format" "$1 $2 $3"
  ++ en "numberFormat"
  ++ en "availableFormats"
  ++ st "generalDesc" []
  ++ tx "nationalNumberPattern" "[235]\d{8}|800\d{5,6}"
  ++ en "generalDesc"
  ++ st "noInternationalDialling" []
  ++ em "possibleLengths" [("national", "8,9")]
  ++ tx "nationalNumberPattern" "800\d{5,6}"
  ++ en "noInternationalDialling"
  ++ st "fixedLine" []
  ++ em "possibleLengths" [("national", "9"); ("localOnly", "7")]
  ++ tx "exampleNumber" "302345678"
  ++ tx "nationalNumberPattern" "3082[0-5]\d{4}|3(?:0(?:[237]\d|8[01])|[167](?:2[0-6]|7\d|80)|2(?:2[0-5]|7\d|80)|3(?:2[0-3]|7\d|80)|4(?:2[013-9]|3[01]|7\d|80)|5(?:2[0-7]|7\d|80)|8(?:2[0-2]|7\d|80)|9(?:[28]0|7\d))\d{5}"
  ++ en "fixedLine"
  ++ st "mobile" []
  ++ em "possibleLengths" [("national", "9")]
  ++ tx "exampleNumber" "231234567"
  ++ tx "nationalNumberPattern" "(?:2(?:[0346-9]\d|5[67])|5(?:[03-7]\d|9[1-9]))\d{6}"
  ++ en "mobile"
  ++ st "tollFree" []
  ++ em "possibleLengths" [("national", "8,9")]
  ++ tx "exampleNumber" "80012345"
  ++ tx "nationalNumberPattern" "800\d{5,6}"
  ++ en "tollFree"
  ++ en "territory".

Definition ev_81 : list event :=
  st "territory" [("id", "GI"); ("countryCode", "350"); ("internationalPrefix", "00"); ("mobileNumberPortableRegion", "true")]
  ++ st "availableFormats" []
  ++ st "numberFormat" [("pattern", "(\d{3})(\d{5})")]
  ++ tx "leadingDigits" "2"
  ++ tx "format" "$1 $2"
  ++ en "numberFormat"
  ++ en "availableFormats"
  ++ st "generalDesc" []
  ++ tx "nationalNumberPattern" "(?:[25]\d|60)\d{6}"
  ++ en "generalDesc"
  ++ st "fixedLine" []
  ++ em "possibleLengths" [("national", "8")]
  ++ tx "exampleNumber" "20012345"
  ++ tx "nationalNumberPattern" "2190[0-2]\d{3}|2(?:0(?:[02]\d|3[01])|16[24-9]|2[2-5]\d)\d{4}"
  ++ en "fixedLine"
  ++ st "mobile" []
  ++ em "possibleLengths" [("national", "8")]
  ++ tx "exampleNumber" "57123456"
  ++ tx "nationalNumberPattern" "5251[0-4]\d{3}|(?:5(?:[146-8]\d\d|250)|60(?:1[01]|6\d))\d{4}"
  ++ en "mobile"
  ++ en "territory".

Definition ev_82 : list event :=
  st "territory" [("id", "GL"); ("countryCode", "299"); ("internationalPrefix", "00")]
  ++ st "availableFormats" []
  ++ st "numberFormat" [("pattern", "(\d{2})(\d{2})(\d{2})")]
  ++ tx "leadingDigits" "19|[2-9]"
  ++ tx "format" "$1 $2 $3"
  ++ en "numberFormat"
  ++ en "availableFormats"
  ++ st "generalDesc" []
  ++ tx "nationalNumberPattern" "(?:19|[2-689]\d|70)\d{4}"
  ++ en "generalDesc"
  ++ st "fixedLine" []
  ++ em "possibleLengths" [("national", "6")]
  ++ tx "exampleNumber" "321000"
  ++ tx "nationalNumberPattern" "(?:19|3[1-7]|[68][1-9]|70|9\d)\d{4}"
  ++ en "fixedLine"
  ++ st "mobile" []
  ++ em "possibleLengths" [("national", "6")]
  ++ tx "exampleNumber" "221234"
  ++ tx "nationalNumberPattern" "[245]\d{5}"
  ++ en "mobile"
  ++ st "tollFree" []
  ++ em "possibleLengths" [("national", "6")]
  ++ tx "exampleNumber" "801234"
  ++ tx "nationalNumberPattern" "80\d{4}"
  ++ en "tollFree"
  ++ st "voip" []
  ++ em "possibleLengths" [("national", "6")]
  ++ tx "exampleNumber" "381234"
  ++ tx "nationalNumberPattern" "3[89]\d{4}"
  ++ en "voip"
  ++ en "territory".

Definition ev_83 : list event :=
  st "territory" [("id", "GM"); ("countryCode", "220"); ("internationalPrefix", "00")]
  ++ st "availableFormats" []
  ++ st "numberFormat" [("pattern", "(\d{3})(\d{4})")]
  ++ tx "leadingDigits" "[2-9]"
  ++ tx "format" "$1 $2"
  ++ en "numberFormat"
  ++ en "availableFormats"
  ++ st "generalDesc" []
  ++ tx "nationalNumberPattern" "[2-9]\d{6}"
  ++ en "generalDesc"
  ++ st "fixedLine" []
  ++ em "possibleLengths" [("national", "7")]
  ++ tx "exampleNumber" "5661234"
  ++ tx "nationalNumberPattern" "(?:4(?:[23]\d\d|4(?:1[024679]|[6-9]\d))|5(?:5(?:3\d|4[0-7])|6[67]\d|7(?:1[04]|2[035]|3[58]|48))|8[0-389]\d\d)\d{3}"
  ++ en "fixedLine"
  ++ st "mobile" []
  ++ em "possibleLengths" [("national", "7")]
  ++ tx "exampleNumber" "3012345"
  ++ tx "nationalNumberPattern" "556\d{4}|(?:[23679]\d|4[015]|5[0-489]|8[4-7])\d{5}"
  ++ en "mobile"
  ++ en "territory".

Definition ev_84 : list event :=
  st "territory" [("id", "GN"); ("countryCode", "224"); ("internationalPrefix", "00")]
  ++ st "availableFormats" []
  ++ st "numberFormat" [("pattern", "(\d{2})(\d{2})(\d{2})(\d{2})")]
  ++ tx "leadingDigits" "3"
  ++ tx "format" "$1 $2 $3 $4"
  ++ en "numberFormat"
  ++ st "numberFormat" [("pattern", "(\d{3})(\d{2})(\d{2})(\d{2})")]
  ++ tx "leadingDigits" "[67]"
  ++ tx "format" "$1 $2 $3 $4"
  ++ en "numberFormat"
  ++ en "availableFormats"
  ++ st "generalDesc" []
  ++ tx "nationalNumberPattern" "722\d{6}|(?:3|6\d)\d{7}"
  ++ en "generalDesc"
  ++ st "fixedLine" []
  ++ em "possibleLengths" [("national", "8")]
  ++ tx "exampleNumber" "30241234"
  ++ tx "nationalNumberPattern" "3(?:0(?:24|3[12]|4[1-35-7]|5[13]|6[189]|[78]1|9[1478])|1\d\d)\d{4}"
  ++ en "fixedLine"
  ++ st "mobile" []
  ++ em "possibleLengths" [("national", "9")]
  ++ tx "exampleNumber" "601123456"
  ++ tx "nationalNumberPattern" "6[0-356]\d{7}"
  ++ en "mobile"
  ++ st "voip" []
  ++ em "possibleLengths" [("national", "9")]
  ++ tx "exampleNumber" "722123456"
  ++ tx "nationalNumberPattern" "722\d{6}"
  ++ en "voip"
  ++ en "territory".

Definition ev_85 : list event :=
  st "territory" [("id", "GP"); ("mainCountryForCode", "true"); ("countryCode", "590"); ("internationalPrefix", "00"); ("nationalPrefix", "0"); ("mobileNumberPortableRegion", "true")]
  ++ st "availableFormats" []
  ++ st "numberFormat" [("pattern", "(\d{3})(\d{2})(\d{2})(\d{2})"); ("nationalPrefixFormattingRule", "$NP$FG")]
  ++ tx "leadingDigits" "[5-79]|80[6-9]"
  ++ tx "format" "$1 $2 $3 $4"
  ++ en "numberFormat"
  ++ st "numberFormat" [("pattern", "(\d{3})(\d{2})(\d{2})(\d{2})"); ("nationalPrefixFormattingRule", "$NP$FG")]
  ++ tx "leadingDigits" "8"
  ++ tx "format" "$1 $2 $3 $4"
  ++ en "numberFormat"
  ++ en "availableFormats"
  ++ st "generalDesc" []
  ++ tx "nationalNumberPattern" "7090\d{5}|(?:[56]9|[89]\d)\d{7}"
  ++ en "generalDesc"
  ++ st "fixedLine" []
  ++ em "possibleLengths" [("national", "9")]
  ++ tx "exampleNumber" "590201234"
  ++ tx "nationalNumberPattern" "(?:59(?:0(?:0[1-68]|[14][0-24-9]|2[0-68]|3[1-9]|5[3-579]|[68][0-689]|7[08]|9\d)|87\d)|80[6-9]\d\d)\d{4}"
  ++ en "fixedLine"
  ++ st "mobile" []
  ++ em "possibleLengths" [("national", "9")]
  ++ tx "exampleNumber" "690001234"
  ++ tx "nationalNumberPattern" "(?:69(?:0\d\d|1(?:2[2-9]|3[0-5]))|7090[0-4])\d{4}"
  ++ en "mobile"
  ++ st "tollFree" []
  ++ em "possibleLengths" [("national", "9")]
  ++ tx "exampleNumber" "800012345"
  ++ tx "nationalNumberPattern" "80[0-5]\d{6}"
  ++ en "tollFree"
  ++ st "premiumRate" []
  ++ em "possibleLengths" [("national", "9")]
  ++ tx "exampleNumber" "810123456"
  ++ tx "nationalNumberPattern" "8[129]\d{7}"
  ++ en "premiumRate"
  ++ st "voip" []
  ++ em "possibleLengths" [("national", "9")]
  ++ tx "exampleNumber" "976012345"
  ++ tx "nationalNumberPattern" "9(?:(?:39[5-7]|76[018])\d|475[0-6])\d{4}"
  ++ en "voip"
  ++ en "territory".

Definition ev_86 : list event :=
  st "territory" [("id", "GQ"); ("countryCode", "240"); ("internationalPrefix", "00")]
  ++ st "availableFormats" []
  ++ st "numberFormat" [("pattern", "(\d{3})(\d{3})(\d{3})")]
  ++ tx "leadingDigits" "[235]"
  ++ tx "format" "$1 $2 $3"
  ++ en "numberFormat"
  ++ st "numberFormat" [("pattern", "(\d{3})(\d{6})")]
  ++ tx "leadingDigits" "[89]"
  ++ tx "format" "$1 $2"
  ++ en "numberFormat"
  ++ en "availableFormats"
  ++ st "generalDesc" []
  ++ tx "nationalNumberPattern" "222\d{6}|(?:3\d|55|[89]0)\d{7}"
  ++ en "generalDesc"
  ++ st "fixedLine" []
  ++ em "possibleLengths" [("national", "9")]
  ++ tx "exampleNumber" "333091234"
  ++ tx "nationalNumberPattern" "33[0-24-9]\d[46]\d{4}|3(?:33|5\d)\d[7-9]\d{4}"
  ++ en "fixedLine"
  ++ st "mobile" []
  ++ em "possibleLengths" [("national", "9")]
  ++ tx "exampleNumber" "222123456"
  ++ tx "nationalNumberPattern" "(?:222|55\d)\d{6}"
  ++ en "mobile"
  ++ st "tollFree" []
  ++ em "possibleLengths" [("national", "9")]
  ++ tx "exampleNumber" "800123456"
  ++ tx "nationalNumberPattern" "80\d[1-9]\d{5}"
  ++ en "tollFree"
  ++ st "premiumRate" []
  ++ em "possibleLengths" [("national", "9")]
  ++ tx "exampleNumber" "900123456"
  ++ tx "nationalNumberPattern" "90\d[1-9]\d{5}"
  ++ en "premiumRate"
  ++ en "territory".

Definition ev_87 : list event :=
  st "territory" [("id", "GR"); ("countryCode", "30"); ("internationalPrefix", "00"); ("mobileNumberPortableRegion", "true")]
  ++ st "availableFormats" []
  ++ st "numberFormat" [("pattern", "(\d{2})(\d{4})(\d{4})")]
  ++ tx "leadingDigits" "21|7"
  ++ tx "format" "$1 $2 $3"
  ++ en "numberFormat"
  ++ st "numberFormat" [("pattern", "(\d{4})(\d{6})")]
  ++ tx "leadingDigits" "2(?:2|3[2-57-9]|4[2-469]|5[2-59]|6[2-9]|7[2-69]|8[2-49])|5"
  ++ tx "format" "$1 $2"
  ++ en "numberFormat"
  ++ st "numberFormat" [("pattern", "(\d{3})(\d{3})(\d{4})")]
  ++ tx "leadingDigits" "[2689]"
  ++ tx "format" "$1 $2 $3"
  ++ en "numberFormat"
  ++ st "numberFormat" [("pattern", "(\d{3})(\d{3,4})(\d{5})")]
  ++ tx "leadingDigits" "8"
  ++ tx "format" "$1 $2 $3"
  ++ en "numberFormat"
  ++ en "availableFormats"
  ++ st "generalDesc" []
  ++ tx "nationalNumberPattern" "5005000\d{3}|8\d{9,11}|(?:[269]\d|70)\d{8}"
  ++ en "generalDesc"
  ++ st "fixedLine" []
  ++ em "possibleLengths" [("national", "10")]
  ++ tx "exampleNumber" "2123456789"
  ++ tx "nationalNumberPattern" "2(?:1\d\d|2(?:2[1-46-9]|[36][1-8]|4[1-7]|5[1-4]|7[1-5]|[89][1-9])|3(?:1\d|2[1-57]|[35][1-3]|4[13]|7[1-7]|8[124-6]|9[1-79])|4(?:1\d|2[1-8]|3[1-4]|4[13-5]|6[1-578]|9[1-5])|5(?:1\d|[29][1-4]|3[1-5]|4[124]|5[1-6])|6(?:1\d|[269][1-6]|3[1245]|4[1-7]|5[13-9]|7[14]|8[1-5])|7(?:1\d|2[1-5]|3[1-6]|4[1-7]|5[1-57]|6[135]|9[125-7])|8(?:1\d|2[1-5]|[34][1-4]|9[1-57]))\d{6}"
  ++ en "fixedLine"
  ++ st "mobile" []
  ++ em "possibleLengths" [("national", "10")]
  ++ tx "exampleNumber" "6912345678"
  ++ tx "nationalNumberPattern" "68[57-9]\d{7}|(?:69|94)\d{8}"
  ++ en "mobile"
  ++ st "tollFree" []
  ++ em "possibleLengths" [("national", "[10-12]")]
  ++ tx "exampleNumber" "8001234567"
  ++ tx "nationalNumberPattern" "800\d{7,9}"
  ++ en "tollFree"
  ++ st "premiumRate" []
  ++ em "possibleLengths" [("national", "10")]
  ++ tx "exampleNumber" "9091234567"
  ++ tx "nationalNumberPattern" "90[19]\d{7}"
  ++ en "premiumRate"
  ++ st "sharedCost" []
  ++ em "possibleLengths" [("national", "10")]
  ++ tx "exampleNumber" "8011234567"
  ++ tx "nationalNumberPattern" "8(?:0[16]|12|[27]5|50)\d{7}"
  ++ en "sharedCost"
  ++ st "personalNumber" []
  ++ em "possibleLengths" [("national", "10")]
  ++ tx "exampleNumber" "7012345678"
  ++ tx "nationalNumberPattern" "70\d{8}"
  ++ en "personalNumber"
  ++ st "uan" []
  ++ em "possibleLengths" [("national", "10")]
  ++ tx "exampleNumber" "5005000123"
  ++ tx "nationalNumberPattern" "5005000\d{3}"
  ++ en "uan"
  ++ en "territory".

Definition ev_88 : list event :=
  st "territory" [("id", "GT"); ("countryCode", "502"); ("internationalPrefix", "00")]
  ++ st "availableFormats" []
  ++ st "numberFormat" [("pattern", "(\d{4})(\d{4})")]
  ++ tx "leadingDigits" "[2-8]"
  ++ tx "format" "$1 $2"
  ++ en "numberFormat"
  ++ st "numberFormat" [("pattern", "(\d{4})(\d{3})(\d{4})")]
  ++ tx "leadingDigits" "1"
  ++ tx "format" "$1 $2 $3"
  ++ en "numberFormat"
  ++ en "availableFormats"
  ++ st "generalDesc" []
  ++ tx "nationalNumberPattern" "80\d{6}|(?:1\d{3}|[2-7])\d{7}"
  ++ en "generalDesc"
  ++ st "fixedLine" []
  ++ em "possibleLengths" [("national", "8")]
  ++ tx "exampleNumber" "22456789"
  ++ tx "nationalNumberPattern" "[267][2-9]\d{6}"
  ++ en "fixedLine"
  ++ st "mobile" []
  ++ em "possibleLengths" [("national", "8")]
  ++ tx "exampleNumber" "51234567"
  ++ tx "nationalNumberPattern" "(?:[3-5]\d\d|80[0-4])\d{5}"
  ++ en "mobile"
  ++ st "tollFree" []
  ++ em "possibleLengths" [("national", "11")]
  ++ tx "exampleNumber" "18001112222"
  ++ tx "nationalNumberPattern" "18[01]\d{8}"
  ++ en "tollFree"
  ++ st "premiumRate" []
  ++ em "possibleLengths" [("national", "11")]
  ++ tx "exampleNumber" "19001112222"
  ++ tx "nationalNumberPattern" "19\d{9}"
  ++ en "premiumRate"
  ++ en "territory".

Definition ev_89 : list event :=
  st "territory" [("id", "GU"); ("countryCode", "1"); ("leadingDigits", "671"); ("internationalPrefix", "011"); ("nationalPrefix", "1"); ("nationalPrefixForParsing", "([2-9]\d{6})$|1"); ("nationalPrefixTransformRule", "671$1")]
  ++ st "generalDesc" []
  ++ tx "nationalNumberPattern" "(?:[58]\d\d|671|900)\d{7}"
  ++ en "generalDesc"
  ++ st "fixedLine" []
  ++ em "possibleLengths" [("national", "10"); ("localOnly", "7")]
  ++ tx "exampleNumber" "6713001234"
  ++ tx "nationalNumberPattern" "671(?:2\d\d|3(?:00|3[39]|4[349]|55|6[26])|4(?:00|56|7[1-9]|8[02-9])|5(?:55|6[2-5]|88)|6(?:3[2-578]|4[24-9]|5[34]|78|8[235-9])|7(?:[0479]7|2[0167]|3[45]|8[7-9])|8(?:[2-57-9]8|6[478])|9(?:2[29]|6[79]|7[1279]|8[7-9]|9[16-9]))\d{4}"
  ++ en "fixedLine"
  ++ st "mobile" []
  ++ em "possibleLengths" [("national", "10"); ("localOnly", "7")]
  ++ tx "exampleNumber" "6713001234"
  ++ tx "nationalNumberPattern" "671(?:2\d\d|3(?:00|3[39]|4[349]|55|6[26])|4(?:00|56|7[1-9]|8[02-9])|5(?:55|6[2-5]|88)|6(?:3[2-578]|4[24-9]|5[34]|78|8[235-9])|7(?:[0479]7|2[0167]|3[45]|8[7-9])|8(?:[2-57-9]8|6[478])|9(?:2[29]|6[79]|7[1279]|8[7-9]|9[16-9]))\d{4}"
  ++ en "mobile"
  ++ st "tollFree" []
  ++ em "possibleLengths" [("national", "10")]
  ++ tx "exampleNumber" "8002123456"
  ++ tx "nationalNumberPattern" "8(?:00|33|44|55|66|77|88)[2-9]\d{6}"
  ++ en "tollFree"
  ++ st "premiumRate" []
  ++ em "possibleLengths" [("national", "10")]
  ++ tx "exampleNumber" "9002123456"
  ++ tx "nationalNumberPattern" "900[2-9]\d{6}"
  ++ en "premiumRate"
  ++ st "personalNumber" []
  ++ em "possibleLengths" [("national", "10")]
  ++ tx "exampleNumber" "5002345678"
  ++ tx "nationalNumberPattern" "52(?:3(?:[2-46-9][02-9]\d|5(?:[02-46-9]\d|5[0-46-9]))|4(?:[2-478][02-9]\d|5(?:[034]\d|2[024-9]|5[0-46-9])|6(?:0[1-9]|[2-9]\d)|9(?:[05-9]\d|2[0-5]|49)))\d{4}|52[34][2-9]1[02-9]\d{4}|5(?:00|2[125-9]|3[23]|44|66|77|88)[2-9]\d{6}"
  ++ en "personalNumber"
  ++ en "territory".

Definition ev_90 : list event :=
  st "territory" [("id", "GW"); ("countryCode", "245"); ("internationalPrefix", "00")]
  ++ st "availableFormats" []
  ++ st "numberFormat" [("pattern", "(\d{3})(\d{4})")]
  ++ tx "leadingDigits" "40"
  ++ tx "format" "$1 $2"
  ++ en "numberFormat"
  ++ st "numberFormat" [("pattern", "(\d{3})(\d{3})(\d{3})")]
  ++ tx "leadingDigits" "[49]"
  ++ tx "format" "$1 $2 $3"
  ++ en "numberFormat"
  ++ en "availableFormats"
  ++ st "generalDesc" []
  ++ tx "nationalNumberPattern" "[49]\d{8}|4\d{6}"
  ++ en "generalDesc"
  ++ st "fixedLine" []
  ++ em "possibleLengths" [("national", "9")]
  ++ tx "exampleNumber" "443201234"
  ++ tx "nationalNumberPattern" "443\d{6}"
  ++ en "fixedLine"
  ++ st "mobile" []
  ++ em "possibleLengths" [("national", "9")]
  ++ tx "exampleNumber" "955012345"
  ++ tx "nationalNumberPattern" "9(?:5\d|6[569]|77)\d{6}"
  ++ en "mobile"
  ++ st "voip" []
  ++ em "possibleLengths" [("national", "7")]
  ++ tx "exampleNumber" "4012345"
  ++ tx "nationalNumberPattern" "40\d{5}"
  ++ en "voip"
  ++ en "territory".

Definition ev_91 : list event :=
  st "territory" [("id", "GY"); ("countryCode", "592"); ("internationalPrefix", "001")]
  ++ st "availableFormats" []
  ++ st "numberFormat" [("pattern", "(\d{3})(\d{4})")]
  ++ tx "leadingDigits" "[2-9]"
  ++ tx "format" "$1 $2"
  ++ en "numberFormat"
  ++ en "availableFormats"
  ++ st "generalDesc" []
  ++ tx "nationalNumberPattern" "(?:[2-8]\d{3}|9008)\d{3}"
  ++ en "generalDesc"
  ++ st "fixedLine" []
  ++ em "possibleLengths" [("national", "7")]
  ++ tx "exampleNumber" "2201234"
  ++ tx "nationalNumberPattern" "(?:2(?:1[6-9]|2[0-35-9]|3[1-4]|5[3-9]|6\d|7[0-79])|3(?:2[25-9]|3\d)|4(?:4[0-24]|5[56])|50[0-6]|77[1-57])\d{4}"
  ++ en "fixedLine"
  ++ st "mobile" []
  ++ em "possibleLengths" [("national", "7")]
  ++ tx "exampleNumber" "6091234"
  ++ tx "nationalNumberPattern" "(?:51[01]|6\d\d|7(?:[0-5]\d|6[0-79]|70))\d{4}"
  ++ en "mobile"
  ++ st "tollFree" []
  ++ em "possibleLengths" [("national", "7")]
  ++ tx "exampleNumber" "2891234"
  ++ tx "nationalNumberPattern" "(?:289|8(?:00|6[28]|88|99))\d{4}"
  ++ en "tollFree"
  ++ st "premiumRate" []
  ++ em "possibleLengths" [("national", "7")]
  ++ tx "exampleNumber" "9008123"
  ++ tx "nationalNumberPattern" "9008\d{3}"
  ++ en "premiumRate"
  ++ st "voip" []
  ++ em "possibleLengths" [("national", "7")]
  ++ tx "exampleNumber" "5151234"
  ++ tx "nationalNumberPattern" "515\d{4}"
  ++ en "voip"
  ++ en "territory".

Definition ev_92 : list event :=
  st "territory" [("id", "HK"); ("countryCode", "852"); ("preferredInternationalPrefix", "00"); ("internationalPrefix", "00(?:30|5[09]|[126-9]?)"); ("mobileNumberPortableRegion", "true")]
  ++ st "availableFormats" []
  ++ st "numberFormat" [("pattern", "(\d{3})(\d{2,5})")]
  ++ tx "leadingDigits" "900"
  ++ tx "leadingDigits" "9003"
  ++ tx "format" "$1 $2"
  ++ en "numberFormat"
  ++ st "numberFormat" [("pattern", "(\d{4})(\d{4})")]
  ++ tx "leadingDigits" "[2-7]|8[1-4]|9(?:0[1-9]|[1-8])"
  ++ tx "format" "$1 $2"
  ++ en "numberFormat"
  ++ st "numberFormat" [("pattern", "(\d{3})(\d{3})(\d{3})")]
  ++ tx "leadingDigits" "8"
  ++ tx "format" "$1 $2 $3"
  ++ en "numberFormat"
  ++ st "numberFormat" [("pattern", "(\d{3})(\d{2})(\d{3})(\d{3})")]
  ++ tx "leadingDigits" "9"
  ++ tx "format" "$1 $2 $3 $4"
  ++ en "numberFormat"
  ++ en "availableFormats"
  ++ st "generalDesc" []
  ++ tx "nationalNumberPattern" "8[0-46-9]\d{6,7}|9\d{4,7}|(?:[2-7]|9\d{3})\d{7}"
  ++ en "generalDesc"
  ++ st "fixedLine" []
  ++ em "possibleLengths" [("national", "8")]
  ++ tx "exampleNumber" "21234567"
  ++ tx "nationalNumberPattern" "(?:2(?:[13-9]\d|2[013-9])\d|3(?:(?:[1569][0-24-9]|4[0-246-9]|7[0-24-69])\d|8(?:4[0-8]|[579]\d|6[0-5]))|58(?:0[1-9]|1[2-9]))\d{4}"
  ++ en "fixedLine"
  ++ st "mobile" []
  ++ em "possibleLengths" [("national", "8")]
  ++ tx "exampleNumber" "51234567"
  ++ tx "nationalNumberPattern" "(?:4(?:(?:09|24)[3-6]|44[0-35-9]|6(?:4[0-57-9]|6[0-6])|7(?:4[0-48]|6[0-5]))|5(?:25[3-7]|35[4-8]|73[0-6]|95[0-8])|6(?:26[013-8]|(?:66|78)[0-5])|70(?:7[1-8]|8[0-8])|84(?:4[0-2]|8[0-35-9])|9(?:29[013-9]|39[014-9]|59[0-467]|899))\d{4}|(?:4(?:4[0-35-9]|6[0-357-9]|7[0-35])|5(?:[1-59][0-46-9]|6[0-4689]|7[0-246-9])|6(?:0[1-9]|[13-59]\d|[268][0-57-9]|7[0-79])|70[1-59]|84[0-39]|9(?:0[1-9]|1[02-9]|[2358][0-8]|[467]\d))\d{5}"
  ++ en "mobile"
  ++ st "pager" []
  ++ em "possibleLengths" [("national", "8")]
  ++ tx "exampleNumber" "71123456"
  ++ tx "nationalNumberPattern" "7(?:1(?:0[0-38]|1[0-3679]|3[013]|69|9[0136])|2(?:[02389]\d|1[18]|7[27-9])|3(?:[0-38]\d|7[0-369]|9[2357-9])|47\d|5(?:[178]\d|5[0-5])|6(?:0[0-7]|2[236-9]|[35]\d)|7(?:[27]\d|8[7-9])|8(?:[23689]\d|7[1-9])|9(?:[025]\d|6[0-246-8]|7[0-36-9]|8[238]))\d{4}"
  ++ en "pager"
  ++ st "tollFree" []
  ++ em "possibleLengths" [("national", "9")]
  ++ tx "exampleNumber" "800123456"
  ++ tx "nationalNumberPattern" "800\d{6}"
  ++ en "tollFree"
  ++ st "premiumRate" []
  ++ em "possibleLengths" [("national", "[5-8],11")]
  ++ tx "exampleNumber" "90012345678"
  ++ tx "nationalNumberPattern" "900(?:[0-24-9]\d{7}|3\d{1,4})"
  ++ en "premiumRate"
  ++ st "personalNumber" []
  ++ em "possibleLengths" [("national", "8")]
  ++ tx "exampleNumber" "81123456"
  ++ tx "nationalNumberPattern" "8(?:1[0-4679]\d|2(?:[0-36]\d|7[0-4])|3(?:[034]\d|2[09]|70))\d{4}"
  ++ en "personalNumber"
  ++ st "uan" []
  ++ em "possibleLengths" [("national", "8")]
  ++ tx "exampleNumber" "30161234"
  ++ tx "nationalNumberPattern" "30(?:0[1-9]|[15-7]\d|2[047]|89)\d{4}"
  ++ en "uan"
  ++ en "territory".

Definition ev_93 : list event :=
  st "territory" [("id", "HN"); ("countryCode", "504"); ("internationalPrefix", "00")]
  ++ st "availableFormats" []
  ++ st "numberFormat" [("pattern", "(\d{4})(\d{4})")]
  ++ tx "leadingDigits" "[237-9]"
  ++ tx "format" "$1-$2"
  ++ en "numberFormat"
  ++ st "numberFormat" [("pattern", "(\d{3})(\d{4})(\d{4})")]
  ++ tx "leadingDigits" "8"
  ++ tx "format" "$1 $2 $3"
  ++ tx "intlFormat" "NA"
  ++ en "numberFormat"
  ++ en "availableFormats"
  ++ st "generalDesc" []
  ++ tx "nationalNumberPattern" "8\d{10}|[237-9]\d{7}"
  ++ en "generalDesc"
  ++ st "noInternationalDialling" []
  ++ em "possibleLengths" [("national", "11")]
  ++ tx "nationalNumberPattern" "8002\d{7}"
  ++ en "noInternationalDialling"
  ++ st "fixedLine" []
  ++ em "possibleLengths" [("national", "8")]
  ++ tx "exampleNumber" "22123456"
  ++ tx "nationalNumberPattern" "2(?:2(?:0[0-59]|1[1-9]|[23]\d|4[02-7]|5[57]|6[245]|7[0135689]|8[01346-9]|9[0-2])|4(?:0[578]|2[3-59]|3[13-9]|4[0-68]|5[1-3589])|5(?:0[2357-9]|1[1-356]|4[03-5]|5\d|6[014-69]|7[04]|80)|6(?:[056]\d|17|2[067]|3[047]|4[0-378]|[78][0-8]|9[01])|7(?:0[5-79]|6[46-9]|7[02-9]|8[034]|91)|8(?:79|8[0-357-9]|9[1-57-9]))\d{4}"
  ++ en "fixedLine"
  ++ st "mobile" []
  ++ em "possibleLengths" [("national", "8")]
  ++ tx "exampleNumber" "91234567"
  ++ tx "nationalNumberPattern" "[37-9]\d{7}"
  ++ en "mobile"
  ++ st "tollFree" []
  ++ em "possibleLengths" [("national", "11")]
  ++ tx "exampleNumber" "80021234567"
  ++ tx "nationalNumberPattern" "8002\d{7}"
  ++ en "tollFree"
  ++ en "territory".

Definition ev_94 : list event :=
  st "territory" [("id", "HR"); ("countryCode", "385"); ("internationalPrefix", "00"); ("nationalPrefix", "0"); ("mobileNumberPortableRegion", "true")]
  ++ st "availableFormats" []
  ++ st "numberFormat" [("pattern", "(\d{2})(\d{2})(\d{3})"); ("nationalPrefixFormattingRule", "$NP$FG")]
  ++ tx "leadingDigits" "6[01]"
  ++ tx "format" "$1 $2 $3"
  ++ en "numberFormat"
  ++ st "numberFormat" [("pattern", "(\d{3})(\d{2})(\d{2,3})"); ("nationalPrefixFormattingRule", "$NP$FG")]
  ++ tx "leadingDigits" "8"
  ++ tx "format" "$1 $2 $3"
  ++ en "numberFormat"
  ++ st "numberFormat" [("pattern", "(\d)(\d{4})(\d{3})"); ("nationalPrefixFormattingRule", "$NP$FG")]
  ++ tx "leadingDigits" "1"
  ++ tx "format" "$1 $2 $3"
  ++ en "numberFormat"
  ++ st "numberFormat" [("pattern", "(\d{2})(\d{3})(\d{3,4})"); ("nationalPrefixFormattingRule", "$NP$FG")]
  ++ tx "leadingDigits" "6|7[245]"
  ++ tx "format" "$1 $2 $3"
  ++ en "numberFormat"
  ++ st "numberFormat" [("pattern", "(\d{2})(\d{3})(\d{3,4})"); ("nationalPrefixFormattingRule", "$NP$FG")]
  ++ tx "leadingDigits" "9"
  ++ tx "format" "$1 $2 $3"
  ++ en "numberFormat"
  ++ st "numberFormat" [("pattern", "(\d{2})(\d{3})(\d{3,4})"); ("nationalPrefixFormattingRule", "$NP$FG")]
  ++ tx "leadingDigits" "[2-57]"
  ++ tx "format" "$1 $2 $3"
  ++ en "numberFormat"
  ++ st "numberFormat" [("pattern", "(\d{3})(\d{3})(\d{3})"); ("nationalPrefixFormattingRule", "$NP$FG")]
  ++ tx "leadingDigits" "8"
  ++ tx "format" "$1 $2 $3"
  ++ en "numberFormat"
  ++ en "availableFormats"
  ++ st "generalDesc" []
  ++ tx "nationalNumberPattern" "[2-69]\d{8}|80\d{5,7}|[1-79]\d{7}|6\d{6}"
  ++ en "generalDesc"
  ++ st "fixedLine" []
  ++ em "possibleLengths" [("national", "8,9"); ("localOnly", "6,7")]
  ++ tx "exampleNumber" "12345678"
  ++ tx "nationalNumberPattern" "1\d{7}|(?:2[0-3]|3[1-5]|4[02-47-9]|5[1-3])\d{6,7}"
  ++ en "fixedLine"
  ++ st "mobile" []
  ++ em "possibleLengths" [("national", "8,9")]
  ++ tx "exampleNumber" "921234567"
  ++ tx "nationalNumberPattern" "9(?:(?:0[1-9]|[12589]\d)\d\d|7(?:[0679]\d\d|5(?:[01]\d|44|55|77|9[5-79])))\d{4}|98\d{6}"
  ++ en "mobile"
  ++ st "tollFree" []
  ++ em "possibleLengths" [("national", "[7-9]")]
  ++ tx "exampleNumber" "800123456"
  ++ tx "nationalNumberPattern" "80\d{5,7}"
  ++ en "tollFree"
  ++ st "premiumRate" []
  ++ em "possibleLengths" [("national", "7,8")]
  ++ tx "exampleNumber" "6001234"
  ++ tx "nationalNumberPattern" "6[01459]\d{6}|6[01]\d{5}"
  ++ en "premiumRate"
  ++ st "personalNumber" []
  ++ em "possibleLengths" [("national", "8")]
  ++ tx "exampleNumber" "74123456"
  ++ tx "nationalNumberPattern" "7[45]\d{6}"
  ++ en "personalNumber"
  ++ st "uan" []
  ++ em "possibleLengths" [("national", "8,9")]
  ++ tx "exampleNumber" "62123456"
  ++ tx "nationalNumberPattern" "62\d{6,7}|72\d{6}"
  ++ en "uan"
  ++ en "territory".

Definition ev_95 : list event :=
  st "territory" [("id", "HT"); ("countryCode", "509"); ("internationalPrefix", "00")]
  ++ st "availableFormats" []
  ++ st "numberFormat" [("pattern", "(\d{2})(\d{2})(\d{4})")]
  ++ tx "leadingDigits" "[2-589]"
  ++ tx "format" "$1 $2 $3"
  ++ en "numberFormat"
  ++ en "availableFormats"
  ++ st "generalDesc" []
  ++ tx "nationalNumberPattern" "[2-589]\d{7}"
  ++ en "generalDesc"
  ++ st "fixedLine" []
  ++ em "possibleLengths" [("national", "8")]
  ++ tx "exampleNumber" "22453300"
  ++ tx "nationalNumberPattern" "2(?:2\d|5[1-5]|81|9[149])\d{5}"
  ++ en "fixedLine"
  ++ st "mobile" []
  ++ em "possibleLengths" [("national", "8")]
  ++ tx "exampleNumber" "34101234"
  ++ tx "nationalNumberPattern" "(?:[34]\d|5[568])\d{6}"
  ++ en "mobile"
  ++ st "tollFree" []
  ++ em "possibleLengths" [("national", "8")]
  ++ tx "exampleNumber" "80012345"
  ++ tx "nationalNumberPattern" "8\d{7}"
  ++ en "tollFree"
  ++ st "voip" []
  ++ em "possibleLengths" [("national", "8")]
  ++ tx "exampleNumber" "98901234"
  ++ tx "nationalNumberPattern" "9(?:[67][0-4]|8[0-3589]|9\d)\d{5}"
  ++ en "voip"
  ++ en "territory".

Definition ev_96 : list event :=
  st "territory" [("id", "HU"); ("countryCode", "36"); ("internationalPrefix", "00"); ("nationalPrefix", "06"); ("mobileNumberPortableRegion", "true")]
  ++ st "availableFormats" []
  ++ st "numberFormat" [("pattern", "(\d)(\d{3})(\d{4})"); ("nationalPrefixFormattingRule", "($NP $FG)")]
  ++ tx "leadingDigits" "1"
  ++ tx "format" "$1 $2 $3"
  ++ en "numberFormat"
  ++ st "numberFormat" [("pattern", "(\d{2})(\d{3})(\d{3})"); ("nationalPrefixFormattingRule", "($NP $FG)")]
  ++ tx "leadingDigits" "[27][2-9]|3[2-7]|4[24-9]|5[2-79]|6|8[2-57-9]|9[2-69]"
  ++ tx "format" "$1 $2 $3"
  ++ en "numberFormat"
  ++ st "numberFormat" [("pattern", "(\d{2})(\d{3})(\d{3,4})"); ("nationalPrefixFormattingRule", "$NP $FG")]
  ++ tx "leadingDigits" "[2-9]"
  ++ tx "format" "$1 $2 $3"
  ++ en "numberFormat"
  ++ en "availableFormats"
  ++ st "generalDesc" []
  ++ tx "nationalNumberPattern" "[235-7]\d{8}|[1-9]\d{7}"
  ++ en "generalDesc"
  ++ st "noInternationalDialling" []
  ++ em "possibleLengths" [("national", "8,9")]
  ++ tx "nationalNumberPattern" "(?:[48]0\d|680[29])\d{5}"
  ++ en "noInternationalDialling"
  ++ st "fixedLine" []
  ++ em "possibleLengths" [("national", "8"); ("localOnly", "6,7")]
  ++ tx "exampleNumber" "12345678"
  ++ tx "nationalNumberPattern" "(?:1\d|[27][2-9]|3[2-7]|4[24-9]|5[2-79]|6[23689]|8[2-57-9]|9[2-69])\d{6}"
  ++ en "fixedLine"
  ++ st "mobile" []
  ++ em "possibleLengths" [("national", "9")]
  ++ tx "exampleNumber" "201234567"
  ++ tx "nationalNumberPattern" "(?:[257]0|3[01])\d{7}"
  ++ en "mobile"
  ++ st "tollFree" []
  ++ em "possibleLengths" [("national", "8,9")]
  ++ tx "exampleNumber" "80123456"
  ++ tx "nationalNumberPattern" "(?:[48]0\d|680[29])\d{5}"
  ++ en "tollFree"
  ++ st "premiumRate" []
  ++ em "possibleLengths" [("national", "8")]
  ++ tx "exampleNumber" "90123456"
  ++ tx "nationalNumberPattern" "9[01]\d{6}"
  ++ en "premiumRate"
  ++ st "voip" []
  ++ em "possibleLengths" [("national", "9")]
  ++ tx "exampleNumber" "211234567"
  ++ tx "nationalNumberPattern" "21\d{7}"
  ++ en "voip"
  ++ st "uan" []
  ++ em "possibleLengths" [("national", "9")]
  ++ tx "exampleNumber" "381234567"
  ++ tx "nationalNumberPattern" "38\d{7}"
  ++ en "uan"
  ++ en "territory".

Definition ev_97 : list event :=
  st "territory" [("id", "ID"); ("countryCode", "62"); ("internationalPrefix", "00[89]"); ("nationalPrefix", "0")]
  ++ st "availableFormats" []
  ++ st "numberFormat" [("pattern", "(\d)(\d{3})(\d{3})")]
  ++ tx "leadingDigits" "15"
  ++ tx "format" "$1 $2 $3"
  ++ en "numberFormat"
  ++ st "numberFormat" [("pattern", "(\d{2})(\d{5,9})"); ("nationalPrefixFormattingRule", "($NP$FG)")]
  ++ tx "leadingDigits" "2[124]|[36]1"
  ++ tx "format" "$1 $2"
  ++ en "numberFormat"
  ++ st "numberFormat" [("pattern", "(\d{3})(\d{5,7})"); ("nationalPrefixFormattingRule", "$NP$FG")]
  ++ tx "leadingDigits" "800"
  ++ tx "format" "$1 $2"
  ++ en "numberFormat"
  ++ st "numberFormat" [("pattern", "(\d{3})(\d{5,8})"); ("nationalPrefixFormattingRule", "($NP$FG)")]
  ++ tx "leadingDigits" "[2-79]"
  ++ tx "format" "$1 $2"
  ++ en "numberFormat"
  ++ st "numberFormat" [("pattern", "(\d{3})(\d{3,4})(\d{3})"); ("nationalPrefixFormattingRule", "$NP$FG")]
  ++ tx "leadingDigits" "8[1-35-9]"
  ++ tx "format" "$1-$2-$3"
  ++ en "numberFormat"
  ++ st "numberFormat" [("pattern", "(\d{3})(\d{6,8})"); ("nationalPrefixFormattingRule", "$NP$FG")]
  ++ tx "leadingDigits" "1"
  ++ tx "format" "$1 $2"
  ++ en "numberFormat"
  ++ st "numberFormat" [("pattern", "(\d{3})(\d{3})(\d{4})"); ("nationalPrefixFormattingRule", "$NP$FG")]
  ++ tx "leadingDigits" "804"
  ++ tx "format" "$1 $2 $3"
  ++ en "numberFormat"
  ++ st "numberFormat" [("pattern", "(\d{3})(\d)(\d{3})(\d{3})"); ("nationalPrefixFormattingRule", "$NP$FG")]
  ++ tx "leadingDigits" "80"
  ++ tx "format" "$1 $2 $3 $4"
  ++ en "numberFormat"
  ++ st "numberFormat" [("pattern", "(\d{3})(\d{4})(\d{4,5})"); ("nationalPrefixFormattingRule", "$NP$FG")]
  ++ tx "leadingDigits" "8"
  ++ tx "format" "$1-$2-$3"
  ++ en "numberFormat"
  ++ st "numberFormat" [("pattern", "(\d{3})(\d{3})(\d{3})(\d{2,8})")]
  ++ tx "leadingDigits" "001"
  ++ tx "format" "$1 $2 $3 $4"
  ++ tx "intlFormat" "NA"
  ++ en "numberFormat"
  ++ st "numberFormat" [("pattern", "(\d{2})(\d{4})(\d{3})(\d{4})")]
  ++ tx "leadingDigits" "0"
  ++ tx "format" "$1 $2 $3 $4"
  ++ tx "intlFormat" "NA"
  ++ en "numberFormat"
  ++ en "availableFormats"
  ++ st "generalDesc" []
  ++ tx "nationalNumberPattern" "00[1-9]\d{9,14}|(?:[1-36]|8\d{5})\d{6}|00\d{9}|[1-9]\d{8,10}|[2-9]\d{7}"
  ++ en "generalDesc"
  ++ st "noInternationalDialling" []
  ++ em "possibleLengths" [("national", "[10-17]")]
  ++ tx "nationalNumberPattern" "001803\d{5,11}|(?:007803\d|8071)\d{6}"
  ++ en "noInternationalDialling"
  ++ st "fixedLine" []
  ++ em "possibleLengths" [("national", "[7-11]"); ("localOnly", "5,6")]
  ++ tx "exampleNumber" "218350123"
  ++ tx "nationalNumberPattern" "2[124]\d{7,8}|619\d{8}|2(?:1(?:14|500)|2\d{3})\d{3}|61\d{5,8}|(?:2(?:[35][1-4]|6[0-8]|7[1-6]|8\d|9[1-8])|3(?:1|[25][1-8]|3[1-68]|4[1-3]|6[1-3568]|7[0-469]|8\d)|4(?:0[1-589]|1[01347-9]|2[0-36-8]|3[0-24-68]|43|5[1-378]|6[1-5]|7[134]|8[1245])|5(?:1[1-35-9]|2[25-8]|3[124-9]|4[1-3589]|5[1-46]|6[1-8])|6(?:[25]\d|3[1-69]|4[1-6])|7(?:02|[125][1-9]|[36]\d|4[1-8]|7[0-36-9])|9(?:0[12]|1[013-8]|2[0-479]|5[125-8]|6[23679]|7[159]|8[01346]))\d{5,8}"
  ++ en "fixedLine"
  ++ st "mobile" []
  ++ em "possibleLengths" [("national", "[9-12]")]
  ++ tx "exampleNumber" "812345678"
  ++ tx "nationalNumberPattern" "8[1-35-9]\d{7,10}"
  ++ en "mobile"
  ++ st "tollFree" []
  ++ em "possibleLengths" [("national", "[8-17]")]
  ++ tx "exampleNumber" "8001234567"
  ++ tx "nationalNumberPattern" "00(?:1803\d{5,11}|7803\d{7})|(?:177\d|800)\d{5,7}"
  ++ en "tollFree"
  ++ st "premiumRate" []
  ++ em "possibleLengths" [("national", "10")]
  ++ tx "exampleNumber" "8091234567"
  ++ tx "nationalNumberPattern" "809\d{7}"
  ++ en "premiumRate"
  ++ st "sharedCost" []
  ++ em "possibleLengths" [("national", "10")]
  ++ tx "exampleNumber" "8041234567"
  ++ tx "nationalNumberPattern" "804\d{7}"
  ++ en "sharedCost"
  ++ st "uan" []
  ++ em "possibleLengths" [("national", "7,10")]
  ++ tx "exampleNumber" "8071123456"
  ++ tx "nationalNumberPattern" "(?:1500|8071\d{3})\d{3}"
  ++ en "uan"
  ++ en "territory".

Definition ev_98 : list event :=
  st "territory" [("id", "IE"); ("countryCode", "353"); ("internationalPrefix", "00"); ("nationalPrefix", "0"); ("mobileNumberPortableRegion", "true")]
  ++ st "availableFormats" []
  ++ st "numberFormat" [("pattern", "(\d{2})(\d{5})"); ("nationalPrefixFormattingRule", "($NP$FG)")]
  ++ tx "leadingDigits" "2[24-9]|47|58|6[237-9]|9[35-9]"
  ++ tx "format" "$1 $2"
  ++ en "numberFormat"
  ++ st "numberFormat" [("pattern", "(\d{3})(\d{5})"); ("nationalPrefixFormattingRule", "($NP$FG)")]
  ++ tx "leadingDigits" "[45]0"
  ++ tx "format" "$1 $2"
  ++ en "numberFormat"
  ++ st "numberFormat" [("pattern", "(\d)(\d{3,4})(\d{4})"); ("nationalPrefixFormattingRule", "($NP$FG)")]
  ++ tx "leadingDigits" "1"
  ++ tx "format" "$1 $2 $3"
  ++ en "numberFormat"
  ++ st "numberFormat" [("pattern", "(\d{2})(\d{3})(\d{3,4})"); ("nationalPrefixFormattingRule", "($NP$FG)")]
  ++ tx "leadingDigits" "[2569]|4[1-69]|7[14]"
  ++ tx "format" "$1 $2 $3"
  ++ en "numberFormat"
  ++ st "numberFormat" [("pattern", "(\d{3})(\d{3})(\d{3})"); ("nationalPrefixFormattingRule", "$NP$FG")]
  ++ tx "leadingDigits" "70"
  ++ tx "format" "$1 $2 $3"
  ++ en "numberFormat"
  ++ st "numberFormat" [("pattern", "(\d{3})(\d{3})(\d{3})"); ("nationalPrefixFormattingRule", "($NP$FG)")]
  ++ tx "leadingDigits" "81"
  ++ tx "format" "$1 $2 $3"
  ++ en "numberFormat"
  ++ st "numberFormat" [("pattern", "(\d{2})(\d{3})(\d{4})"); ("nationalPrefixFormattingRule", "$NP$FG")]
  ++ tx "leadingDigits" "[78]"
  ++ tx "format" "$1 $2 $3"
  ++ en "numberFormat"
  ++ st "numberFormat" [("pattern", "(\d{4})(\d{3})(\d{3})")]
  ++ tx "leadingDigits" "1"
  ++ tx "format" "$1 $2 $3"
  ++ en "numberFormat"
  ++ st "numberFormat" [("pattern", "(\d{2})(\d{4})(\d{4})"); ("nationalPrefixFormattingRule", "($NP$FG)")]
  ++ tx "leadingDigits" "4"
  ++ tx "format" "$1 $2 $3"
  ++ en "numberFormat"
  ++ st "numberFormat" [("pattern", "(\d{2})(\d)(\d{3})(\d{4})"); ("nationalPrefixFormattingRule", "$NP$FG")]
  ++ tx "leadingDigits" "8"
  ++ tx "format" "$1 $2 $3 $4"
  ++ en "numberFormat"
  ++ en "availableFormats"
  ++ st "generalDesc" []
  ++ tx "nationalNumberPattern" "(?:1\d|[2569])\d{6,8}|4\d{6,9}|7\d{8}|8\d{8,9}"
  ++ en "generalDesc"
  ++ st "noInternationalDialling" []
  ++ em "possibleLengths" [("national", "10")]
  ++ tx "nationalNumberPattern" "18[59]0\d{6}"
  ++ en "noInternationalDialling"
  ++ st "fixedLine" []
  ++ em "possibleLengths" [("national", "[7-10]"); ("localOnly", "5,6")]
  ++ tx "exampleNumber" "2212345"
  ++ tx "nationalNumberPattern" "(?:1\d|21)\d{6,7}|(?:2[24-9]|4(?:0[24]|5\d|7)|5(?:0[45]|1\d|8)|6(?:1\d|[237-9])|9(?:1\d|[35-9]))\d{5}|(?:23|4(?:[1-469]|8\d)|5[23679]|6[4-6]|7[14]|9[04])\d{7}"
  ++ en "fixedLine"
  ++ st "mobile" []
  ++ em "possibleLengths" [("national", "9")]
  ++ tx "exampleNumber" "850123456"
  ++ tx "nationalNumberPattern" "8(?:22|[35-9]\d)\d{6}"
  ++ en "mobile"
  ++ st "tollFree" []
  ++ em "possibleLengths" [("national", "10")]
  ++ tx "exampleNumber" "1800123456"
  ++ tx "nationalNumberPattern" "1800\d{6}"
  ++ en "tollFree"
  ++ st "premiumRate" []
  ++ em "possibleLengths" [("national", "10")]
  ++ tx "exampleNumber" "1520123456"
  ++ tx "nationalNumberPattern" "15(?:1[2-8]|[2-8]0|9[089])\d{6}"
  ++ en "premiumRate"
  ++ st "sharedCost" []
  ++ em "possibleLengths" [("national", "10")]
  ++ tx "exampleNumber" "1850123456"
  ++ tx "nationalNumberPattern" "18[59]0\d{6}"
  ++ en "sharedCost"
  ++ st "personalNumber" []
  ++ em "possibleLengths" [("national", "9")]
  ++ tx "exampleNumber" "700123456"
  ++ tx "nationalNumberPattern" "700\d{6}"
  ++ en "personalNumber"
  ++ st "voip" []
  ++ em "possibleLengths" [("national", "9")]
  ++ tx "exampleNumber" "761234567"
  ++ tx "nationalNumberPattern" "76\d{7}"
  ++ en "voip"
  ++ st "uan" []
  ++ em "possibleLengths" [("national", "9")]
  ++ tx "exampleNumber" "818123456"
  ++ tx "nationalNumberPattern" "818\d{6}"
  ++ en "uan"
  ++ st "voicemail" []
  ++ em "possibleLengths" [("national", "10")]
  ++ tx "exampleNumber" "8551234567"
  ++ tx "nationalNumberPattern" "88210[1-9]\d{4}|8(?:[35-79]5\d\d|8(?:[013-9]\d\d|2(?:[01][1-9]|[2-9]\d)))\d{5}"
  ++ en "voicemail"
  ++ en "territory".

Definition ev_99 : list event :=
  st "territory" [("id", "IL"); ("countryCode", "972"); ("internationalPrefix", "0(?:0|1[2-9])"); ("nationalPrefix", "0"); ("mobileNumberPortableRegion", "true")]
  ++ st "availableFormats" []
  ++ st "numberFormat" [("pattern", "(\d{4})(\d{3})")]
  ++ tx "leadingDigits" "125"
  ++ tx "format" "$1-$2"
  ++ en "numberFormat"
  ++ st "numberFormat" [("pattern", "(\d{4})(\d{2})(\d{2})")]
  ++ tx "leadingDigits" "121"
  ++ tx "format" "$1-$2-$3"
  ++ en "numberFormat"
  ++ st "numberFormat" [("pattern", "(\d)(\d{3})(\d{4})"); ("nationalPrefixFormattingRule", "$NP$FG")]
  ++ tx "leadingDigits" "[2-489]"
  ++ tx "format" "$1-$2-$3"
  ++ en "numberFormat"
  ++ st "numberFormat" [("pattern", "(\d{2})(\d{3})(\d{4})"); ("nationalPrefixFormattingRule", "$NP$FG")]
  ++ tx "leadingDigits" "[57]"
  ++ tx "format" "$1-$2-$3"
  ++ en "numberFormat"
  ++ st "numberFormat" [("pattern", "(\d{4})(\d{3})(\d{3})")]
  ++ tx "leadingDigits" "12"
  ++ tx "format" "$1-$2-$3"
  ++ en "numberFormat"
  ++ st "numberFormat" [("pattern", "(\d{4})(\d{6})")]
  ++ tx "leadingDigits" "159"
  ++ tx "format" "$1-$2"
  ++ en "numberFormat"
  ++ st "numberFormat" [("pattern", "(\d)(\d{3})(\d{3})(\d{3})")]
  ++ tx "leadingDigits" "1[7-9]"
  ++ tx "format" "$1-$2-$3-$4"
  ++ en "numberFormat"
  ++ st "numberFormat" [("pattern", "(\d{3})(\d{1,2})(\d{3})(\d{4})")]
  ++ tx "leadingDigits" "15"
  ++ tx "format" "$1-$2 $3-$4"
  ++ en "numberFormat"
  ++ en "availableFormats"
  ++ st "generalDesc" []
  ++ tx "nationalNumberPattern" "1\d{6}(?:\d{3,5})?|[57]\d{8}|[1-489]\d{7}"
  ++ en "generalDesc"
  ++ st "noInternationalDialling" []
  ++ em "possibleLengths" [("national", "10")]
  ++ tx "nationalNumberPattern" "1700\d{6}"
  ++ en "noInternationalDialling"
  ++ st "fixedLine" []
  ++ em "possibleLengths" [("national", "8,11,12"); ("localOnly", "7")]
  ++ tx "exampleNumber" "21234567"
  ++ tx "nationalNumberPattern" "153\d{8,9}|29[1-9]\d{5}|(?:2[0-8]|[3489]\d)\d{6}"
  ++ en "fixedLine"
  ++ st "mobile" []
  ++ em "possibleLengths" [("national", "9")]
  ++ tx "exampleNumber" "502345678"
  ++ tx "nationalNumberPattern" "55(?:4(?:0[0-3]|[16]0)|57[0-289])\d{4}|5(?:(?:[0-2][02-9]|[36]\d|[49][2-9]|8[3-7])\d|5(?:01|2\d|3[0-3]|4[3-5]|5[0-25689]|6[6-8]|7[0-267]|8[7-9]|9[1-9]))\d{5}"
  ++ en "mobile"
  ++ st "tollFree" []
  ++ em "possibleLengths" [("national", "7,10")]
  ++ tx "exampleNumber" "1800123456"
  ++ tx "nationalNumberPattern" "1(?:255|80[019]\d{3})\d{3}"
  ++ en "tollFree"
  ++ st "premiumRate" []
  ++ em "possibleLengths" [("national", "8,10")]
  ++ tx "exampleNumber" "1919123456"
  ++ tx "nationalNumberPattern" "1212\d{4}|1(?:200|9(?:0[0-2]|19|9\d))\d{6}"
  ++ en "premiumRate"
  ++ st "sharedCost" []
  ++ em "possibleLengths" [("national", "10")]
  ++ tx "exampleNumber" "1700123456"
  ++ tx "nationalNumberPattern" "1700\d{6}"
  ++ en "sharedCost"
  ++ st "voip" []
  ++ em "possibleLengths" [("national", "9")]
  ++ tx "exampleNumber" "771234567"
  ++ tx "nationalNumberPattern" "7(?:38(?:[05]\d|8[0138])|8(?:33|55|77|81)\d)\d{4}|7(?:18|2[23]|3[237]|47|6[258]|7\d|82|9[2-9])\d{6}"
  ++ en "voip"
  ++ st "uan" []
  ++ em "possibleLengths" [("national", "10")]
  ++ tx "exampleNumber" "1599123456"
  ++ tx "nationalNumberPattern" "1599\d{6}"
  ++ en "uan"
  ++ st "voicemail" []
  ++ em "possibleLengths" [("national", "11,12")]
  ++ tx "exampleNumber" "15112340000"
  ++ tx "nationalNumberPattern" "151\d{8,9}"
  ++ en "voicemail"
  ++ en "territory".

Definition ev_100 : list event :=
  st "territory" [("id", "IM"); ("countryCode", "44"); ("leadingDigits", "74576|(?:16|7[56])24"); ("internationalPrefix", "00"); ("nationalPrefix", "0"); ("nationalPrefixForParsing", "([25-8]\d{5})$|0|180020"); ("nationalPrefixTransformRule", "1624$1")]
  ++ st "generalDesc" []
  ++ tx "nationalNumberPattern" "1624\d{6}|(?:[3578]\d|90)\d{8}"
  ++ en "generalDesc"
  ++ st "fixedLine" []
  ++ em "possibleLengths" [("national", "10"); ("localOnly", "6")]
  ++ tx "exampleNumber" "1624756789"
  ++ tx "nationalNumberPattern" "1624(?:230|[5-8]\d\d)\d{3}"
  ++ en "fixedLine"
  ++ st "mobile" []
  ++ em "possibleLengths" [("national", "10")]
  ++ tx "exampleNumber" "7924123456"
  ++ tx "nationalNumberPattern" "76245[06]\d{4}|7(?:4576|[59]24\d|624[0-4689])\d{5}"
  ++ en "mobile"
  ++ st "tollFree" []
  ++ em "possibleLengths" [("national", "10")]
  ++ tx "exampleNumber" "8081624567"
  ++ tx "nationalNumberPattern" "808162\d{4}"
  ++ en "tollFree"
  ++ st "premiumRate" []
  ++ em "possibleLengths" [("national", "10")]
  ++ tx "exampleNumber" "9016247890"
  ++ tx "nationalNumberPattern" "8(?:440[49]06|72299\d)\d{3}|(?:8(?:45|70)|90[0167])624\d{4}"
  ++ en "premiumRate"
  ++ st "personalNumber" []
  ++ em "possibleLengths" [("national", "10")]
  ++ tx "exampleNumber" "7012345678"
  ++ tx "nationalNumberPattern" "70\d{8}"
  ++ en "personalNumber"
  ++ st "voip" []
  ++ em "possibleLengths" [("national", "10")]
  ++ tx "exampleNumber" "5612345678"
  ++ tx "nationalNumberPattern" "56\d{8}"
  ++ en "voip"
  ++ st "uan" []
  ++ em "possibleLengths" [("national", "10")]
  ++ tx "exampleNumber" "5512345678"
  ++ tx "nationalNumberPattern" "3440[49]06\d{3}|(?:3(?:08162|3\d{4}|45624|7(?:0624|2299))|55\d{4})\d{4}"
  ++ en "uan"
  ++ en "territory".

Definition ev_101 : list event :=
  st "territory" [("id", "IN"); ("countryCode", "91"); ("internationalPrefix", "00"); ("nationalPrefix", "0"); ("mobileNumberPortableRegion", "true")]
  ++ st "availableFormats" []
  ++ st "numberFormat" [("pattern", "(\d{7})")]
  ++ tx "leadingDigits" "575"
  ++ tx "format" "$1"
  ++ tx "intlFormat" "NA"
  ++ en "numberFormat"
  ++ st "numberFormat" [("pattern", "(\d{8})"); ("nationalPrefixOptionalWhenFormatting", "true")]
  ++ tx "leadingDigits" "5(?:0|2[23]|3[03]|[67]1|88)"
  ++ tx "leadingDigits" "5(?:0|2(?:21|3)|3(?:0|3[23])|616|717|888)"
  ++ tx "leadingDigits" "5(?:0|2(?:21|3)|3(?:0|3[23])|616|717|8888)"
  ++ tx "format" "$1"
  ++ en "numberFormat"
  ++ st "numberFormat" [("pattern", "(\d{4})(\d{4,5})"); ("nationalPrefixOptionalWhenFormatting", "true")]
  ++ tx "leadingDigits" "180"
  ++ tx "leadingDigits" "1800"
  ++ tx "format" "$1 $2"
  ++ en "numberFormat"
  ++ st "numberFormat" [("pattern", "(\d{3})(\d{3})(\d{4})"); ("nationalPrefixOptionalWhenFormatting", "true")]
  ++ tx "leadingDigits" "140"
  ++ tx "format" "$1 $2 $3"
  ++ en "numberFormat"
  ++ st "numberFormat" [("pattern", "(\d{2})(\d{4})(\d{4})"); ("nationalPrefixFormattingRule", "$NP$FG"); ("nationalPrefixOptionalWhenFormatting", "true")]
  ++ tx "leadingDigits" "11|2[02]|33|4[04]|79[1-7]|80[2-46]"
  ++ tx "leadingDigits" "11|2[02]|33|4[04]|79(?:[1-6]|7[19])|80(?:[2-4]|6[0-589])"
  ++ tx "leadingDigits" "11|2[02]|33|4[04]|79(?:[124-6]|3(?:[02-9]|1[0-24-9])|7(?:1|9[1-6]))|80(?:[2-4]|6[0-589])"
  ++ tx "format" "$1 $2 $3"
  ++ en "numberFormat"
  ++ st "numberFormat" [("pattern", "(\d{3})(\d{3})(\d{4})"); ("nationalPrefixFormattingRule", "$NP$FG"); ("nationalPrefixOptionalWhenFormatting", "true")]
  ++ tx "leadingDigits" "1(?:2[0-249]|3[0-25]|4[145]|[68]|7[1257])|2(?:1[257]|3[013]|4[01]|5[0137]|6[0158]|78|8[1568])|3(?:26|4[1-3]|5[34]|6[01489]|7[02-46]|8[159])|4(?:1[36]|2[1-47]|5[12]|6[0-26-9]|7[0-24-9]|8[013-57]|9[014-7])|5(?:1[025]|22|[36][25]|4[28]|5[12]|[78]1)|6(?:12|[2-4]1|5[17]|6[13]|80)|7(?:12|3[134]|61|88)|8(?:16|2[014]|3[126]|6[136]|7[078]|8[34]|91)|(?:43|59|75)[15]|(?:1[59]|29|67)[14]"
  ++ tx "leadingDigits" "1(?:2[0-24]|3[0-25]|4[145]|[59][14]|6[1-9]|7[1257]|8[1-57-9])|2(?:1[257]|3[013]|4[01]|5[0137]|6[058]|78|8[1568]|9[14])|3(?:26|4[1-3]|5[34]|6[01489]|7[02-46]|8[159])|4(?:1[36]|2[1-47]|3[15]|5[12]|6[0-26-9]|7[0-24-9]|8[013-57]|9[014-7])|5(?:1[025]|22|[36][25]|4[28]|[578]1|9[15])|674|7(?:(?:3[34]|5[15])[2-6]|61[346]|88[0-8])|8(?:70[2-6]|84[235-7]|91[3-7])|(?:1(?:29|60|8[06])|261|552|6(?:12|[2-47]1|5[17]|6[13]|80)|7(?:12|31)|8(?:16|2[014]|3[126]|6[136]|7[78]|83))[2-7]"
  ++ tx "leadingDigits" "1(?:2[0-24]|3[0-25]|4[145]|[59][14]|6[1-9]|7[1257]|8[1-57-9])|2(?:1[257]|3[013]|4[01]|5[0137]|6[058]|78|8[1568]|9[14])|3(?:26|4[1-3]|5[34]|6[01489]|7[02-46]|8[159])|4(?:1[36]|2[1-47]|3[15]|5[12]|6[0-26-9]|7[0-24-9]|8[013-57]|9[014-7])|5(?:1[025]|22|[36][25]|4[28]|[578]1|9[15])|6(?:12(?:[2-6]|7[0-8])|74[2-7])|7(?:3171|5[15][2-6]|61[346]|88(?:[2-7]|82))|8(?:70[2-6]|84(?:[2356]|7[19])|91(?:[3-6]|7[19]))|73[134][2-6]|8(?:16|2[014]|3[126]|6[136]|7[78]|83)(?:[2-6]|7[19])|(?:1(?:29|60|8[06])|261|552|6(?:[2-4]1|5[17]|6[13]|7(?:1|4[0189])|80)|7(?:12|88[01]))[2-7]"
  ++ tx "format" "$1 $2 $3"
  ++ en "numberFormat"
  ++ st "numberFormat" [("pattern", "(\d{4})(\d{3})(\d{3})"); ("nationalPrefixFormattingRule", "$NP$FG"); ("nationalPrefixOptionalWhenFormatting", "true")]
  ++ tx "leadingDigits" "1(?:[2-479]|5[0235-9])|[2-5]|6(?:1[1358]|2[2457-9]|3[2-5]|4[235-7]|5[2-689]|6[24578]|7[235689]|8[1-6])|7(?:1[013-9]|3[129]|5[29]|6[02-5]|70)|807"
  ++ tx "leadingDigits" "1(?:[2-479]|5[0235-9])|[2-5]|6(?:1[1358]|2(?:[2457]|84|95)|3(?:[2-4]|55)|4[235-7]|5[2-689]|6[24578]|7(?:[23569]|8[0-57-9])|8[1-6])|7(?:1(?:[013-8]|9[6-9])|3(?:17|2[0-49]|9[2-57])|5(?:2[1-3]|9[0-6])|6(?:0[5689]|2[5-9]|3[02-8]|4|5[0-367])|70[13-7])|807[19]"
  ++ tx "leadingDigits" "1(?:[2-479]|5(?:[0236-9]|5[013-9]))|[2-5]|6(?:2(?:84|95)|355|8(?:28[235-7]|3))|73179|807(?:1|9[1-3])|(?:1552|6(?:(?:1[1358]|2[2457]|3[2-4]|4[235-7]|5[2-689]|6[24578])\d|7(?:[23569]\d|8[0-57-9])|8(?:[14-6]\d|2[0-79]))|7(?:1(?:[013-8]\d|9[6-9])|3(?:2[0-49]|9[2-57])|5(?:2[1-3]|9[0-6])|6(?:0[5689]|2[5-9]|3[02-8]|4\d|5[0-367])|70[13-7]))[2-7]"
  ++ tx "format" "$1 $2 $3"
  ++ en "numberFormat"
  ++ st "numberFormat" [("pattern", "(\d{5})(\d{5})"); ("nationalPrefixFormattingRule", "$NP$FG"); ("nationalPrefixOptionalWhenFormatting", "true")]
  ++ tx "leadingDigits" "16|[6-9]"
  ++ tx "format" "$1 $2"
  ++ en "numberFormat"
  ++ st "numberFormat" [("pattern", "(\d{4})(\d{2,4})(\d{4})"); ("nationalPrefixOptionalWhenFormatting", "true")]
  ++ tx "leadingDigits" "18[06]"
  ++ tx "leadingDigits" "18[06]0"
  ++ tx "format" "$1 $2 $3"
  ++ en "numberFormat"
  ++ st "numberFormat" [("pattern", "(\d{3})(\d{3})(\d{3})(\d{4})")]
  ++ tx "leadingDigits" "0"
  ++ tx "format" "$1 $2 $3 $4"
  ++ tx "intlFormat" "NA"
  ++ en "numberFormat"
  ++ st "numberFormat" [("pattern", "(\d{4})(\d{3})(\d{3})(\d{3})"); ("nationalPrefixOptionalWhenFormatting", "true")]
  ++ tx "leadingDigits" "18"
  ++ tx "format" "$1 $2 $3 $4"
  ++ en "numberFormat"
  ++ en "availableFormats"
  ++ st "generalDesc" []
  ++ tx "nationalNumberPattern" "(?:000800|[2-9]\d\d)\d{7}|1\d{7,12}"
  ++ en "generalDesc"
  ++ st "noInternationalDialling" []
  ++ em "possibleLengths" [("national", "[8-13]")]
  ++ tx "nationalNumberPattern" "1800\d{4,9}|(?:000800|18(?:03\d\d|6(?:0|[12]\d\d)))\d{7}"
  ++ en "noInternationalDialling"
  ++ st "fixedLine" []
  ++ em "possibleLengths" [("national", "10"); ("localOnly", "[6-8]")]
  ++ tx "exampleNumber" "7410410123"
  ++ tx "nationalNumberPattern" "(?:2717(?:[2-7]\d|95)|6828[235-7]\d)\d{4}|(?:170[24]|280[13468]|4(?:20[24]|72[2-8])|552[1-7])\d{6}|(?:271[0-689]|682[0-79]|782[0-6])[2-7]\d{5}|(?:2(?:[02][2-79]|90)|3(?:23|80)|683|79[1-7])\d{7}|(?:11|33|4[04]|80)[2-7]\d{7}|(?:342|674|788)(?:[0189][2-7]|[2-7]\d)\d{5}|(?:1(?:2[0-249]|3[0-25]|4[145]|[59][14]|6[014]|7[1257]|8[01346])|2(?:1[257]|3[013]|4[01]|5[0137]|6[0158]|78|8[1568]|9[14])|3(?:26|4[13]|5[34]|6[01489]|7[02-46]|8[159])|4(?:1[36]|2[1-47]|3[15]|5[12]|6[0-26-9]|7[014-9]|8[013-57]|9[014-7])|5(?:1[025]|22|[36][25]|4[28]|[578]1|9[15])|6(?:12|[2-47]1|5[17]|6[13]|80)|7(?:12|2[14]|3[134]|4[47]|5[15]|[67]1)|8(?:16|2[014]|3[126]|6[136]|7[078]|8[34]|91))[2-7]\d{6}|(?:1(?:2[35-8]|3[346-9]|4[236-9]|[59][0235-9]|6[235-9]|7[34689]|8[257-9])|2(?:1[134689]|3[24-8]|4[2-8]|5[25689]|6[2-4679]|7[3-79]|8[2-479]|9[235-9])|3(?:01|1[79]|2[1245]|4[5-8]|5[125689]|6[235-7]|7[157-9]|8[2-46-8])|4(?:1[14578]|2[5689]|3[2-467]|5[4-7]|6[35]|73|8[2689]|9[2389])|5(?:[16][146-9]|2[14-8]|3[1346]|4[14-69]|5[46]|7[2-4]|8[2-8]|9[246])|6(?:1[1358]|2[2457]|3[2-4]|4[235-7]|5[2-689]|6[24578]|7[235689]|8[14-6])|7(?:1[013-9]|2[0235-9]|3[2679]|4[1-35689]|5[2-46-9]|[67][02-9]|8[013-7]|9[089])|8(?:1[1357-9]|2[235-8]|3[03-57-9]|4[0-24-9]|5\d|6[2457-9]|7[1-6]|8[1256]|9[2-4]))\d[2-7]\d{5}"
  ++ en "fixedLine"
  ++ st "mobile" []
  ++ em "possibleLengths" [("national", "10")]
  ++ tx "exampleNumber" "8123456789"
  ++ tx "nationalNumberPattern" "(?:6(?:1279|828[01489])|7(?:887[02-9]|9(?:313|79[07-9]))|8(?:079[04-9]|(?:84|91)7[02-8]))\d{5}|(?:160[01]|6(?:(?:12|[2-4]1|5[17]|6[13]|80)[0189]|7(?:1[0189]|86))|7(?:1(?:2[0189]|9[0-5])|3(?:2[5-8]|[34][017-9]|9[016-9])|5(?:[15][017-9]|2[04-9]|9[7-9])|6(?:0[0-47]|1[0-257-9]|2[0-4]|3[19]|5[4589])|70[0289]|88[089]|97[02-8])|8(?:0(?:6[67]|7[02-8])|70[017-9]|84[01489]|91[0-289]))\d{6}|(?:731|8(?:16|2[014]|3[126]|6[136]|7[78]|83))(?:[0189]\d|7[02-8])\d{5}|(?:6(?:(?:1[1358]|2[2457]|3[2-4]|4[235-7]|5[2-689]|6[24578])\d|7(?:[23569]\d|4[0189]|8[0-57-9])|8(?:[14-6]\d|2[0-79]))|7(?:1(?:[013-8]\d|9[6-9])|3(?:2[0-49]|9[2-5])|5(?:2[1-3]|9[0-6])|6(?:0[5689]|2[5-9]|3[02-8]|4\d|5[0-367])|70[13-7]|881))[0189]\d{5}|(?:6(?:[09]\d|1[04679]|2[03689]|3[05-9]|4[0489]|50|6[069]|7[07]|8[7-9])|7(?:[024]\d|3[05-8]|5[0346-8]|6[6-9]|7[1-9]|8[0-79]|9[089])|8(?:0[01589]|1[0-57-9]|2[235-9]|3[03-57-9]|[45]\d|6[02457-9]|7[1-69]|8[0-25-9]|9[02-9])|9\d\d)\d{7}"
  ++ en "mobile"
  ++ st "tollFree" []
  ++ em "possibleLengths" [("national", "[8-13]")]
  ++ tx "exampleNumber" "1800123456"
  ++ tx "nationalNumberPattern" "000800\d{7}|180(?:0\d{4,9}|3\d{9})"
  ++ en "tollFree"
  ++ st "premiumRate" []
  ++ em "possibleLengths" [("national", "13")]
  ++ tx "exampleNumber" "1861123456789"
  ++ tx "nationalNumberPattern" "186[12]\d{9}"
  ++ en "premiumRate"
  ++ st "sharedCost" []
  ++ em "possibleLengths" [("national", "11")]
  ++ tx "exampleNumber" "18603451234"
  ++ tx "nationalNumberPattern" "1860\d{7}"
  ++ en "sharedCost"
  ++ st "uan" []
  ++ em "possibleLengths" [("national", "10")]
  ++ tx "exampleNumber" "1409305260"
  ++ tx "nationalNumberPattern" "140\d{7}"
  ++ en "uan"
  ++ en "territory".

Definition ev_102 : list event :=
  st "territory" [("id", "IO"); ("countryCode", "246"); ("internationalPrefix", "00")]
  ++ st "availableFormats" []
  ++ st "numberFormat" [("pattern", "(\d{3})(\d{4})")]
  ++ tx "leadingDigits" "3"
  ++ tx "format" "$1 $2"
  ++ en "numberFormat"
  ++ en "availableFormats"
  ++ st "generalDesc" []
  ++ tx "nationalNumberPattern" "3\d{6}"
  ++ en "generalDesc"
  ++ st "fixedLine" []
  ++ em "possibleLengths" [("national", "7")]
  ++ tx "exampleNumber" "3709100"
  ++ tx "nationalNumberPattern" "37\d{5}"
  ++ en "fixedLine"
  ++ st "mobile" []
  ++ em "possibleLengths" [("national", "7")]
  ++ tx "exampleNumber" "3801234"
  ++ tx "nationalNumberPattern" "38\d{5}"
  ++ en "mobile"
  ++ en "territory".

Definition ev_103 : list event :=
  st "territory" [("id", "IQ"); ("countryCode", "964"); ("internationalPrefix", "00"); ("nationalPrefix", "0")]
  ++ st "availableFormats" []
  ++ st "numberFormat" [("pattern", "(\d)(\d{3})(\d{4})"); ("nationalPrefixFormattingRule", "$NP$FG")]
  ++ tx "leadingDigits" "1"
  ++ tx "format" "$1 $2 $3"
  ++ en "numberFormat"
  ++ st "numberFormat" [("pattern", "(\d{2})(\d{3})(\d{3,4})"); ("nationalPrefixFormattingRule", "$NP$FG")]
  ++ tx "leadingDigits" "[2-6]"
  ++ tx "format" "$1 $2 $3"
  ++ en "numberFormat"
  ++ st "numberFormat" [("pattern", "(\d{3})(\d{3})(\d{4})"); ("nationalPrefixFormattingRule", "$NP$FG")]
  ++ tx "leadingDigits" "7"
  ++ tx "format" "$1 $2 $3"
  ++ en "numberFormat"
  ++ en "availableFormats"
  ++ st "generalDesc" []
  ++ tx "nationalNumberPattern" "(?:1|7\d\d)\d{7}|[2-6]\d{7,8}"
  ++ en "generalDesc"
  ++ st "fixedLine" []
  ++ em "possibleLengths" [("national", "8,9"); ("localOnly", "6,7")]
  ++ tx "exampleNumber" "12345678"
  ++ tx "nationalNumberPattern" "1\d{7}|(?:2[13-5]|3[02367]|4[023]|5[03]|6[026])\d{6,7}"
  ++ en "fixedLine"
  ++ st "mobile" []
  ++ em "possibleLengths" [("national", "10")]
  ++ tx "exampleNumber" "7912345678"
  ++ tx "nationalNumberPattern" "7[3-9]\d{8}"
  ++ en "mobile"
  ++ en "territory".

Definition ev_104 : list event :=
  st "territory" [("id", "IR"); ("countryCode", "98"); ("internationalPrefix", "00"); ("nationalPrefix", "0"); ("mobileNumberPortableRegion", "true")]
  ++ st "availableFormats" []
  ++ st "numberFormat" [("pattern", "(\d{4,5})"); ("nationalPrefixFormattingRule", "$NP$FG")]
  ++ tx "leadingDigits" "96"
  ++ tx "format" "$1"
  ++ en "numberFormat"
  ++ st "numberFormat" [("pattern", "(\d{2})(\d{4,5})"); ("nationalPrefixFormattingRule", "$NP$FG")]
  ++ tx "leadingDigits" "(?:1[137]|2[13-68]|3[1458]|4[145]|5[1468]|6[16]|7[1467]|8[13467])[12689]"
  ++ tx "format" "$1 $2"
  ++ en "numberFormat"
  ++ st "numberFormat" [("pattern", "(\d{3})(\d{3})(\d{3,4})"); ("nationalPrefixFormattingRule", "$NP$FG")]
  ++ tx "leadingDigits" "9"
  ++ tx "format" "$1 $2 $3"
  ++ en "numberFormat"
  ++ st "numberFormat" [("pattern", "(\d{2})(\d{4})(\d{4})"); ("nationalPrefixFormattingRule", "$NP$FG")]
  ++ tx "leadingDigits" "[1-8]"
  ++ tx "format" "$1 $2 $3"
  ++ en "numberFormat"
  ++ en "availableFormats"
  ++ st "generalDesc" []
  ++ tx "nationalNumberPattern" "[1-9]\d{9}|(?:[1-8]\d\d|9)\d{3,4}"
  ++ en "generalDesc"
  ++ st "noInternationalDialling" []
  ++ em "possibleLengths" [("national", "4,5,10")]
  ++ tx "nationalNumberPattern" "9(?:4440\d{5}|6(?:0[12]|2[16-8]|3(?:08|[14]5|[23]|66)|4(?:0|80)|5[01]|6[89]|86|9[19]))"
  ++ en "noInternationalDialling"
  ++ st "fixedLine" []
  ++ em "possibleLengths" [("national", "6,7,10"); ("localOnly", "4,5,8")]
  ++ tx "exampleNumber" "2123456789"
  ++ tx "nationalNumberPattern" "(?:1[137]|2[13-68]|3[1458]|4[145]|5[1468]|6[16]|7[1467]|8[13467])(?:[03-57]\d{7}|[16]\d{3}(?:\d{4})?|[289]\d{3}(?:\d(?:\d{3})?)?)|94(?:000[09]|(?:12\d|30[0-2])\d|2(?:[02689]0\d|121)|4(?:111|40\d))\d{4}"
  ++ en "fixedLine"
  ++ st "mobile" []
  ++ em "possibleLengths" [("national", "10")]
  ++ tx "exampleNumber" "9123456789"
  ++ tx "nationalNumberPattern" "9(?:(?:0[0-5]|[13]\d|2[0-3])\d\d|9(?:[0-46]\d\d|5(?:10|5\d)|8(?:[12]\d|88)|9(?:[01359]\d|21|69|77|8[7-9])))\d{5}"
  ++ en "mobile"
  ++ st "uan" []
  ++ em "possibleLengths" [("national", "4,5")]
  ++ tx "exampleNumber" "9601"
  ++ tx "nationalNumberPattern" "96(?:0[12]|2[16-8]|3(?:08|[14]5|[23]|66)|4(?:0|80)|5[01]|6[89]|86|9[19])"
  ++ en "uan"
  ++ en "territory".

Definition ev_105 : list event :=
  st "territory" [("id", "IS"); ("countryCode", "354"); ("preferredInternationalPrefix", "00"); ("internationalPrefix", "00|1(?:0(?:01|[12]0)|100)"); ("mobileNumberPortableRegion", "true")]
  ++ st "availableFormats" []
  ++ st "numberFormat" [("pattern", "(\d{3})(\d{4})")]
  ++ tx "leadingDigits" "[4-9]"
  ++ tx "format" "$1 $2"
  ++ en "numberFormat"
  ++ st "numberFormat" [("pattern", "(\d{3})(\d{3})(\d{3})")]
  ++ tx "leadingDigits" "3"
  ++ tx "format" "$1 $2 $3"
  ++ en "numberFormat"
  ++ en "availableFormats"
  ++ st "generalDesc" []
  ++ tx "nationalNumberPattern" "(?:38\d|[4-9])\d{6}"
  ++ en "generalDesc"
  ++ st "fixedLine" []
  ++ em "possibleLengths" [("national", "7")]
  ++ tx "exampleNumber" "4101234"
  ++ tx "nationalNumberPattern" "(?:4(?:1[0-24-69]|2[0-7]|[37][0-8]|4[0-24589]|5[0-68]|6\d|8[0-36-8])|5(?:05|[156]\d|2[02578]|3[0-579]|4[03-7]|7[0-2578]|8[0-35-9]|9[013-689])|872)\d{4}"
  ++ en "fixedLine"
  ++ st "mobile" []
  ++ em "possibleLengths" [("national", "7,9")]
  ++ tx "exampleNumber" "6111234"
  ++ tx "nationalNumberPattern" "(?:38[589]\d\d|6(?:1[1-8]|2[0-6]|3[026-9]|4[014679]|5[0159]|6[0-69]|70|8[06-8]|9\d)|7(?:5[057]|[6-9]\d)|8(?:2[0-59]|[3-69]\d|8[238]))\d{4}"
  ++ en "mobile"
  ++ st "tollFree" []
  ++ em "possibleLengths" [("national", "7")]
  ++ tx "exampleNumber" "8001234"
  ++ tx "nationalNumberPattern" "80[0-8]\d{4}"
  ++ en "tollFree"
  ++ st "premiumRate" []
  ++ em "possibleLengths" [("national", "7")]
  ++ tx "exampleNumber" "9001234"
  ++ tx "nationalNumberPattern" "90(?:0\d|1[5-79]|2[015-79]|3[135-79]|4[125-7]|5[25-79]|7[1-37]|8[0-35-7])\d{3}"
  ++ en "premiumRate"
  ++ st "voip" []
  ++ em "possibleLengths" [("national", "7")]
  ++ tx "exampleNumber" "4921234"
  ++ tx "nationalNumberPattern" "49[0-24-79]\d{4}"
  ++ en "voip"
  ++ st "uan" []
  ++ em "possibleLengths" [("national", "7")]
  ++ tx "exampleNumber" "8091234"
  ++ tx "nationalNumberPattern" "809\d{4}"
  ++ en "uan"
  ++ st "voicemail" []
  ++ em "possibleLengths" [("national", "7")]
  ++ tx "exampleNumber" "6891234"
  ++ tx "nationalNumberPattern" "(?:689|8(?:7[18]|80)|95[48])\d{4}"
  ++ en "voicemail"
  ++ en "territory".

Definition ev_106 : list event :=
  st "territory" [("id", "IT"); ("mainCountryForCode", "true"); ("countryCode", "39"); ("internationalPrefix", "00"); ("mobileNumberPortableRegion", "true")]
  ++ st "availableFormats" []
  ++ st "numberFormat" [("pattern", "(\d{4,5})")]
  ++ tx "leadingDigits" "1(?:0|9[246])"
  ++ tx "leadingDigits" "1(?:0|9(?:2[2-9]|[46]))"
  ++ tx "format" "$1"
  ++ tx "intlFormat" "NA"
  ++ en "numberFormat"
  ++ st "numberFormat" [("pattern", "(\d{6})")]
  ++ tx "leadingDigits" "1(?:1|92)"
  ++ tx "format" "$1"
  ++ tx "intlFormat" "NA"
  ++ en "numberFormat"
  ++ st "numberFormat" [("pattern", "(\d{2})(\d{4,6})")]
  ++ tx "leadingDigits" "0[26]"
  ++ tx "format" "$1 $2"
  ++ en "numberFormat"
  ++ st "numberFormat" [("pattern", "(\d{3})(\d{3,6})")]
  ++ tx "leadingDigits" "0[13-57-9][0159]|8(?:03|4[17]|9[2-5])"
  ++ tx "leadingDigits" "0[13-57-9][0159]|8(?:03|4[17]|9(?:2|3[04]|[45][0-4]))"
  ++ tx "format" "$1 $2"
  ++ en "numberFormat"
  ++ st "numberFormat" [("pattern", "(\d{4})(\d{2,6})")]
  ++ tx "leadingDigits" "0(?:[13-579][2-46-8]|8[236-8])"
  ++ tx "format" "$1 $2"
  ++ en "numberFormat"
  ++ st "numberFormat" [("pattern", "(\d{4})(\d{4})")]
  ++ tx "leadingDigits" "894"
  ++ tx "format" "$1 $2"
  ++ en "numberFormat"
  ++ st "numberFormat" [("pattern", "(\d{2})(\d{3,4})(\d{4})")]
  ++ tx "leadingDigits" "0[26]|5"
  ++ tx "format" "$1 $2 $3"
  ++ en "numberFormat"
  ++ st "numberFormat" [("pattern", "(\d{3})(\d{3})(\d{3,4})")]
  ++ tx "leadingDigits" "1(?:44|[679])|[378]|43"
  ++ tx "format" "$1 $2 $3"
  ++ en "numberFormat"
  ++ st "numberFormat" [("pattern", "(\d{3})(\d{3,4})(\d{4})")]
  ++ tx "leadingDigits" "0[13-57-9][0159]|14"
  ++ tx "format" "$1 $2 $3"
  ++ en "numberFormat"
  ++ st "numberFormat" [("pattern", "(\d{2})(\d{4})(\d{5})")]
  ++ tx "leadingDigits" "0[26]"
  ++ tx "format" "$1 $2 $3"
  ++ en "numberFormat"
  ++ st "numberFormat" [("pattern", "(\d{4})(\d{3})(\d{4})")]
  ++ tx "leadingDigits" "0"
  ++ tx "format" "$1 $2 $3"
  ++ en "numberFormat"
  ++ st "numberFormat" [("pattern", "(\d{3})(\d{4})(\d{4,5})")]
  ++ tx "leadingDigits" "[03]"
  ++ tx "format" "$1 $2 $3"
  ++ en "numberFormat"
  ++ en "availableFormats"
  ++ st "generalDesc" []
  ++ tx "nationalNumberPattern" "0\d{5,11}|1\d{8,10}|3(?:[0-8]\d{7,10}|9\d{7,8})|(?:43|55|70)\d{8}|8\d{5}(?:\d{2,4})?"
  ++ en "generalDesc"
  ++ st "noInternationalDialling" []
  ++ em "possibleLengths" [("national", "9")]
  ++ tx "nationalNumberPattern" "848\d{6}"
  ++ en "noInternationalDialling"
  ++ st "fixedLine" []
  ++ em "possibleLengths" [("national", "[6-12]")]
  ++ tx "exampleNumber" "0212345678"
  ++ tx "nationalNumberPattern" "0(?:669[0-79]\d{1,6}|831\d{2,8})|0(?:1(?:[0159]\d|[27][1-5]|31|4[1-4]|6[1356]|8[2-57])|2\d\d|3(?:[0159]\d|2[1-4]|3[12]|[48][1-6]|6[2-59]|7[1-7])|4(?:[0159]\d|[23][1-9]|4[245]|6[1-5]|7[1-4]|81)|5(?:[0159]\d|2[1-5]|3[2-6]|4[1-79]|6[4-6]|7[1-578]|8[3-8])|6(?:[0-57-9]\d|6[0-8])|7(?:[0159]\d|2[12]|3[1-7]|4[2-46]|6[13569]|7[13-6]|8[1-59])|8(?:[0159]\d|2[3-578]|3[2356]|[6-8][1-5])|9(?:[0159]\d|[238][1-5]|4[12]|6[1-8]|7[1-6]))\d{2,7}"
  ++ en "fixedLine"
  ++ st "mobile" []
  ++ em "possibleLengths" [("national", "9,10")]
  ++ tx "exampleNumber" "3123456789"
  ++ tx "nationalNumberPattern" "3[2-9]\d{7,8}|(?:31|43)\d{8}"
  ++ en "mobile"
  ++ st "tollFree" []
  ++ em "possibleLengths" [("national", "6,9")]
  ++ tx "exampleNumber" "800123456"
  ++ tx "nationalNumberPattern" "80(?:0\d{3}|3)\d{3}"
  ++ en "tollFree"
  ++ st "premiumRate" []
  ++ em "possibleLengths" [("national", "6,[8-10]")]
  ++ tx "exampleNumber" "899123456"
  ++ tx "nationalNumberPattern" "(?:0878\d{3}|89(?:2\d|3[04]|4(?:[0-4]|[5-9]\d\d)|5[0-4]))\d\d|(?:1(?:44|6[346])|89(?:38|5[5-9]|9))\d{6}"
  ++ en "premiumRate"
  ++ st "sharedCost" []
  ++ em "possibleLengths" [("national", "6,9")]
  ++ tx "exampleNumber" "848123456"
  ++ tx "nationalNumberPattern" "84(?:[08]\d{3}|[17])\d{3}"
  ++ en "sharedCost"
  ++ st "personalNumber" []
  ++ em "possibleLengths" [("national", "9,10")]
  ++ tx "exampleNumber" "1781234567"
  ++ tx "nationalNumberPattern" "1(?:78\d|99)\d{6}"
  ++ en "personalNumber"
  ++ st "voip" []
  ++ em "possibleLengths" [("national", "10")]
  ++ tx "exampleNumber" "5512345678"
  ++ tx "nationalNumberPattern" "55\d{8}"
  ++ en "voip"
  ++ st "voicemail" []
  ++ em "possibleLengths" [("national", "11,12")]
  ++ tx "exampleNumber" "33101234501"
  ++ tx "nationalNumberPattern" "3[2-8]\d{9,10}"
  ++ en "voicemail"
  ++ en "territory".

Definition ev_107 : list event :=
  st "territory" [("id", "JE"); ("countryCode", "44"); ("internationalPrefix", "00"); ("nationalPrefix", "0"); ("nationalPrefixForParsing", "([0-24-8]\d{5})$|0|180020"); ("nationalPrefixTransformRule", "1534$1")]
  ++ st "generalDesc" []
  ++ tx "nationalNumberPattern" "1534\d{6}|(?:[3578]\d|90)\d{8}"
  ++ en "generalDesc"
  ++ st "fixedLine" []
  ++ em "possibleLengths" [("national", "10"); ("localOnly", "6")]
  ++ tx "exampleNumber" "1534456789"
  ++ tx "nationalNumberPattern" "1534[0-24-8]\d{5}"
  ++ en "fixedLine"
  ++ st "mobile" []
  ++ em "possibleLengths" [("national", "10")]
  ++ tx "exampleNumber" "7797712345"
  ++ tx "nationalNumberPattern" "7(?:(?:(?:50|82)9|937)\d|7(?:00[378]|97\d))\d{5}"
  ++ en "mobile"
  ++ st "pager" []
  ++ em "possibleLengths" [("national", "10")]
  ++ tx "exampleNumber" "7640123456"
  ++ tx "nationalNumberPattern" "76(?:464|652)\d{5}|76(?:0[0-28]|2[356]|34|4[01347]|5[49]|6[0-369]|77|8[14]|9[139])\d{6}"
  ++ en "pager"
  ++ st "tollFree" []
  ++ em "possibleLengths" [("national", "10")]
  ++ tx "exampleNumber" "8007354567"
  ++ tx "nationalNumberPattern" "80(?:07(?:35|81)|8901)\d{4}"
  ++ en "tollFree"
  ++ st "premiumRate" []
  ++ em "possibleLengths" [("national", "10")]
  ++ tx "exampleNumber" "9018105678"
  ++ tx "nationalNumberPattern" "(?:8(?:4(?:4(?:4(?:05|42|69)|703)|5(?:041|800))|7(?:0002|1206))|90(?:066[59]|1810|71(?:07|55)))\d{4}"
  ++ en "premiumRate"
  ++ st "personalNumber" []
  ++ em "possibleLengths" [("national", "10")]
  ++ tx "exampleNumber" "7015115678"
  ++ tx "nationalNumberPattern" "701511\d{4}"
  ++ en "personalNumber"
  ++ st "voip" []
  ++ em "possibleLengths" [("national", "10")]
  ++ tx "exampleNumber" "5612345678"
  ++ tx "nationalNumberPattern" "56\d{8}"
  ++ en "voip"
  ++ st "uan" []
  ++ em "possibleLengths" [("national", "10")]
  ++ tx "exampleNumber" "5512345678"
  ++ tx "nationalNumberPattern" "(?:3(?:0(?:07(?:35|81)|8901)|3\d{4}|4(?:4(?:4(?:05|42|69)|703)|5(?:041|800))|7(?:0002|1206))|55\d{4})\d{4}"
  ++ en "uan"
  ++ en "territory".

Definition ev_108 : list event :=
  st "territory" [("id", "JM"); ("countryCode", "1"); ("leadingDigits", "658|876"); ("internationalPrefix", "011"); ("nationalPrefix", "1"); ("mobileNumberPortableRegion", "true")]
  ++ st "generalDesc" []
  ++ tx "nationalNumberPattern" "(?:[58]\d\d|658|900)\d{7}"
  ++ en "generalDesc"
  ++ st "fixedLine" []
  ++ em "possibleLengths" [("national", "10"); ("localOnly", "7")]
  ++ tx "exampleNumber" "8765230123"
  ++ tx "nationalNumberPattern" "8766060\d{3}|(?:658(?:2(?:[5-8]\d|9[0-46-9])|[3-9]\d\d)|876(?:52[35]|6(?:0[1-3579]|1[0235-9]|[23]\d|40|5[06]|6[2-589]|7[0-25-9]|8[04]|9[4-9])|7(?:0[2-689]|[1-6]\d|8[056]|9[45])|9(?:0[1-8]|1[02378]|[2-8]\d|9[2-468])))\d{4}"
  ++ en "fixedLine"
  ++ st "mobile" []
  ++ em "possibleLengths" [("national", "10"); ("localOnly", "7")]
  ++ tx "exampleNumber" "8762101234"
  ++ tx "nationalNumberPattern" "(?:6582(?:[0-4]\d|95)|876(?:2(?:0[1-9]|[13-9]\d|2[013-9])|[348]\d\d|5(?:0[1-9]|[1-9]\d)|6(?:4[89]|6[67])|7(?:0[07]|7\d|8[1-47-9]|9[0-36-9])|9(?:[01]9|9[0579])))\d{4}"
  ++ en "mobile"
  ++ st "tollFree" []
  ++ em "possibleLengths" [("national", "10")]
  ++ tx "exampleNumber" "8002123456"
  ++ tx "nationalNumberPattern" "8(?:00|33|44|55|66|77|88)[2-9]\d{6}"
  ++ en "tollFree"
  ++ st "premiumRate" []
  ++ em "possibleLengths" [("national", "10")]
  ++ tx "exampleNumber" "9002123456"
  ++ tx "nationalNumberPattern" "900[2-9]\d{6}"
  ++ en "premiumRate"
  ++ st "personalNumber" []
  ++ em "possibleLengths" [("national", "10")]
  ++ tx "exampleNumber" "5002345678"
  ++ tx "nationalNumberPattern" "52(?:3(?:[2-46-9][02-9]\d|5(?:[02-46-9]\d|5[0-46-9]))|4(?:[2-478][02-9]\d|5(?:[034]\d|2[024-9]|5[0-46-9])|6(?:0[1-9]|[2-9]\d)|9(?:[05-9]\d|2[0-5]|49)))\d{4}|52[34][2-9]1[02-9]\d{4}|5(?:00|2[125-9]|3[23]|44|66|77|88)[2-9]\d{6}"
  ++ en "personalNumber"
  ++ en "territory".

Definition ev_109 : list event :=
  st "territory" [("id", "JO"); ("countryCode", "962"); ("internationalPrefix", "00"); ("nationalPrefix", "0"); ("mobileNumberPortableRegion", "true")]
  ++ st "availableFormats" []
  ++ st "numberFormat" [("pattern", "(\d)(\d{3})(\d{4})"); ("nationalPrefixFormattingRule", "($NP$FG)")]
  ++ tx "leadingDigits" "[2356]|87"
  ++ tx "format" "$1 $2 $3"
  ++ en "numberFormat"
  ++ st "numberFormat" [("pattern", "(\d{3})(\d{5,6})"); ("nationalPrefixFormattingRule", "$NP$FG")]
  ++ tx "leadingDigits" "[89]"
  ++ tx "format" "$1 $2"
  ++ en "numberFormat"
  ++ st "numberFormat" [("pattern", "(\d{2})(\d{7})"); ("nationalPrefixFormattingRule", "$NP$FG")]
  ++ tx "leadingDigits" "70"
  ++ tx "format" "$1 $2"
  ++ en "numberFormat"
  ++ st "numberFormat" [("pattern", "(\d)(\d{4})(\d{4})"); ("nationalPrefixFormattingRule", "$NP$FG")]
  ++ tx "leadingDigits" "[47]"
  ++ tx "format" "$1 $2 $3"
  ++ en "numberFormat"
  ++ en "availableFormats"
  ++ st "generalDesc" []
  ++ tx "nationalNumberPattern" "(?:(?:[2689]|7\d)\d|32|427|53)\d{6}"
  ++ en "generalDesc"
  ++ st "fixedLine" []
  ++ em "possibleLengths" [("national", "8")]
  ++ tx "exampleNumber" "62001234"
  ++ tx "nationalNumberPattern" "87(?:000|90[01])\d{3}|(?:2(?:6(?:2[0-35-9]|3[0-578]|4[24-7]|5[0-24-8]|[6-8][023]|9[0-3])|7(?:0[1-79]|10|2[014-7]|3[0-689]|4[019]|5[0-3578]))|32(?:0[1-69]|1[1-35-7]|2[024-7]|3\d|4[0-3]|[5-7][023])|53(?:0[0-3]|[13][023]|2[0-59]|49|5[0-35-9]|6[15]|7[45]|8[1-6]|9[0-36-9])|6(?:2(?:[05]0|22)|3(?:00|33)|4(?:0[0-25]|1[2-7]|2[0569]|[38][07-9]|4[025689]|6[0-589]|7\d|9[0-2])|5(?:[01][056]|2[034]|3[0-57-9]|4[178]|5[0-69]|6[0-35-9]|7[1-379]|8[0-68]|9[0239]))|87(?:20|7[078]|99))\d{4}"
  ++ en "fixedLine"
  ++ st "mobile" []
  ++ em "possibleLengths" [("national", "9")]
  ++ tx "exampleNumber" "790123456"
  ++ tx "nationalNumberPattern" "(?:427|7(?:[78][0-25-9]|9\d))\d{6}"
  ++ en "mobile"
  ++ st "pager" []
  ++ em "possibleLengths" [("national", "9")]
  ++ tx "exampleNumber" "746612345"
  ++ tx "nationalNumberPattern" "74(?:66|77)\d{5}"
  ++ en "pager"
  ++ st "tollFree" []
  ++ em "possibleLengths" [("national", "8")]
  ++ tx "exampleNumber" "80012345"
  ++ tx "nationalNumberPattern" "80\d{6}"
  ++ en "tollFree"
  ++ st "premiumRate" []
  ++ em "possibleLengths" [("national", "8")]
  ++ tx "exampleNumber" "90012345"
  ++ tx "nationalNumberPattern" "9\d{7}"
  ++ en "premiumRate"
  ++ st "sharedCost" []
  ++ em "possibleLengths" [("national", "8")]
  ++ tx "exampleNumber" "85012345"
  ++ tx "nationalNumberPattern" "85\d{6}"
  ++ en "sharedCost"
  ++ st "personalNumber" []
  ++ em "possibleLengths" [("national", "9")]
  ++ tx "exampleNumber" "700123456"
  ++ tx "nationalNumberPattern" "70\d{7}"
  ++ en "personalNumber"
  ++ st "uan" []
  ++ em "possibleLengths" [("national", "8")]
  ++ tx "exampleNumber" "88101234"
  ++ tx "nationalNumberPattern" "8(?:10|8\d)\d{5}"
  ++ en "uan"
  ++ en "territory".

Definition ev_110 : list event :=
  st "territory" [("id", "JP"); ("countryCode", "81"); ("internationalPrefix", "010"); ("nationalPrefix", "0"); ("nationalPrefixForParsing", "(000[2569]\d{4,6})$|(?:(?:003768)0?)|0"); ("nationalPrefixTransformRule", "$1"); ("mobileNumberPortableRegion", "true")]
  ++ st "availableFormats" []
  ++ st "numberFormat" [("pattern", "(\d{4})(\d{4})")]
  ++ tx "leadingDigits" "007"
  ++ tx "leadingDigits" "0077"
  ++ tx "leadingDigits" "00777"
  ++ tx "leadingDigits" "00777[01]"
  ++ tx "format" "$1-$2"
  ++ tx "intlFormat" "NA"
  ++ en "numberFormat"
  ++ st "numberFormat" [("pattern", "(\d{8,10})")]
  ++ tx "leadingDigits" "000"
  ++ tx "format" "$1"
  ++ tx "intlFormat" "NA"
  ++ en "numberFormat"
  ++ st "numberFormat" [("pattern", "(\d{3})(\d{3})(\d{3})"); ("nationalPrefixFormattingRule", "$NP$FG")]
  ++ tx "leadingDigits" "(?:12|57|99)0"
  ++ tx "format" "$1-$2-$3"
  ++ en "numberFormat"
  ++ st "numberFormat" [("pattern", "(\d{4})(\d)(\d{4})"); ("nationalPrefixFormattingRule", "$NP$FG")]
  ++ tx "leadingDigits" "1(?:26|3[79]|4[56]|5[4-68]|6[3-5])|499|5(?:76|97)|746|8(?:3[89]|47|51)|9(?:80|9[16])"
  ++ tx "leadingDigits" "1(?:267|3(?:7[247]|9[278])|466|5(?:47|58|64)|6(?:3[245]|48|5[4-68]))|499[2468]|5(?:76|97)9|7468|8(?:3(?:8[7-9]|96)|477|51[2-9])|9(?:802|9(?:1[23]|69))|1(?:45|58)[67]"
  ++ tx "leadingDigits" "1(?:267|3(?:7[247]|9[278])|466|5(?:47|58|64)|6(?:3[245]|48|5[4-68]))|499[2468]|5(?:769|979[2-69])|7468|8(?:3(?:8[7-9]|96[2457-9])|477|51[2-9])|9(?:802|9(?:1[23]|69))|1(?:45|58)[67]"
  ++ tx "format" "$1-$2-$3"
  ++ en "numberFormat"
  ++ st "numberFormat" [("pattern", "(\d{2})(\d{3})(\d{4})"); ("nationalPrefixFormattingRule", "$NP$FG")]
  ++ tx "leadingDigits" "60"
  ++ tx "format" "$1-$2-$3"
  ++ en "numberFormat"
  ++ st "numberFormat" [("pattern", "(\d)(\d{4})(\d{4})"); ("nationalPrefixFormattingRule", "$NP$FG")]
  ++ tx "leadingDigits" "3|4(?:2[09]|7[01])|6[1-9]"
  ++ tx "leadingDigits" "3|4(?:2(?:0|9[02-69])|7(?:0[019]|1))|6[1-9]"
  ++ tx "format" "$1-$2-$3"
  ++ en "numberFormat"
  ++ st "numberFormat" [("pattern", "(\d{2})(\d{3})(\d{4})"); ("nationalPrefixFormattingRule", "$NP$FG")]
  ++ tx "leadingDigits" "1(?:1|5[45]|77|88|9[69])|2(?:2[1-37]|3[0-269]|4[59]|5|6[24]|7[1-358]|8[1369]|9[0-38])|4(?:[28][1-9]|3[0-57]|[45]|6[248]|7[2-579]|9[29])|5(?:2|3[0459]|4[0-369]|5[29]|8[02389]|9[0-389])|7(?:2[02-46-9]|34|[58]|6[0249]|7[57]|9[2-6])|8(?:2[124589]|3[26-9]|49|51|6|7[0-468]|8[68]|9[019])|9(?:[23][1-9]|4[15]|5[138]|6[1-3]|7[156]|8[189]|9[1-489])"
  ++ tx "leadingDigits" "1(?:1|5(?:4[018]|5[017])|77|88|9[69])|2(?:2(?:[127]|3[014-9])|3[0-269]|4[59]|5(?:[1-3]|5[0-69]|9[19])|62|7(?:[1-35]|8[0189])|8(?:[16]|3[0134]|9[0-5])|9(?:[028]|17))|4(?:2(?:[13-79]|8[014-6])|3[0-57]|[45]|6[248]|7[2-47]|8[1-9]|9[29])|5(?:2|3(?:[045]|9[0-8])|4[0-369]|5[29]|8[02389]|9[0-3])|7(?:2[02-46-9]|34|[58]|6[0249]|7[57]|9(?:[23]|4[0-59]|5[01569]|6[0167]))|8(?:2(?:[1258]|4[0-39]|9[0-2469])|3(?:[29]|60)|49|51|6(?:[0-24]|36|5[0-3589]|7[23]|9[01459])|7[0-468]|8[68])|9(?:[23][1-9]|4[15]|5[138]|6[1-3]|7[156]|8[189]|9(?:[1289]|3[34]|4[0178]))|(?:264|837)[016-9]|2(?:57|93)[015-9]|(?:25[0468]|422|838)[01]|(?:47[59]|59[89]|8(?:6[68]|9))[019]"
  ++ tx "leadingDigits" "1(?:1|5(?:4[018]|5[017])|77|88|9[69])|2(?:2[127]|3[0-269]|4[59]|5(?:[1-3]|5[0-69]|9(?:17|99))|6(?:2|4[016-9])|7(?:[1-35]|8[0189])|8(?:[16]|3[0134]|9[0-5])|9(?:[028]|17))|4(?:2(?:[13-79]|8[014-6])|3[0-57]|[45]|6[248]|7[2-47]|9[29])|5(?:2|3(?:[045]|9(?:[0-58]|6[4-9]|7[0-35689]))|4[0-369]|5[29]|8[02389]|9[0-3])|7(?:2[02-46-9]|34|[58]|6[0249]|7[57]|9(?:[23]|4[0-59]|5[01569]|6[0167]))|8(?:2(?:[1258]|4[0-39]|9[0169])|3(?:[29]|60|7(?:[017-9]|6[6-8]))|49|51|6(?:[0-24]|36[2-57-9]|5(?:[0-389]|5[23])|6(?:[01]|9[178])|7(?:2[2-468]|3[78])|9[0145])|7[0-468]|8[68])|9(?:4[15]|5[138]|7[156]|8[189]|9(?:[1289]|3(?:31|4[357])|4[0178]))|(?:8294|96)[1-3]|2(?:57|93)[015-9]|(?:223|8699)[014-9]|(?:25[0468]|422|838)[01]|(?:48|8292|9[23])[1-9]|(?:47[59]|59[89]|8(?:68|9))[019]"
  ++ tx "format" "$1-$2-$3"
  ++ en "numberFormat"
  ++ st "numberFormat" [("pattern", "(\d{3})(\d{2})(\d{4})"); ("nationalPrefixFormattingRule", "$NP$FG")]
  ++ tx "leadingDigits" "[14]|[289][2-9]|5[3-9]|7[2-4679]"
  ++ tx "format" "$1-$2-$3"
  ++ en "numberFormat"
  ++ st "numberFormat" [("pattern", "(\d{4})(\d{2})(\d{3,4})")]
  ++ tx "leadingDigits" "007"
  ++ tx "leadingDigits" "0077"
  ++ tx "format" "$1-$2-$3"
  ++ tx "intlFormat" "NA"
  ++ en "numberFormat"
  ++ st "numberFormat" [("pattern", "(\d{4})(\d{2})(\d{4})")]
  ++ tx "leadingDigits" "008"
  ++ tx "format" "$1-$2-$3"
  ++ tx "intlFormat" "NA"
  ++ en "numberFormat"
  ++ st "numberFormat" [("pattern", "(\d{3})(\d{3})(\d{4})"); ("nationalPrefixFormattingRule", "$NP$FG")]
  ++ tx "leadingDigits" "800"
  ++ tx "format" "$1-$2-$3"
  ++ en "numberFormat"
  ++ st "numberFormat" [("pattern", "(\d{2})(\d{4})(\d{4})"); ("nationalPrefixFormattingRule", "$NP$FG")]
  ++ tx "leadingDigits" "[25-9]"
  ++ tx "format" "$1-$2-$3"
  ++ en "numberFormat"
  ++ st "numberFormat" [("pattern", "(\d{4})(\d{3})(\d{3,4})")]
  ++ tx "leadingDigits" "0"
  ++ tx "format" "$1-$2-$3"
  ++ tx "intlFormat" "NA"
  ++ en "numberFormat"
  ++ st "numberFormat" [("pattern", "(\d{4})(\d{4})(\d{4,5})")]
  ++ tx "leadingDigits" "0"
  ++ tx "format" "$1-$2-$3"
  ++ tx "intlFormat" "NA"
  ++ en "numberFormat"
  ++ st "numberFormat" [("pattern", "(\d{4})(\d{5})(\d{5,6})")]
  ++ tx "leadingDigits" "0"
  ++ tx "format" "$1-$2-$3"
  ++ tx "intlFormat" "NA"
  ++ en "numberFormat"
  ++ st "numberFormat" [("pattern", "(\d{4})(\d{6})(\d{6,7})")]
  ++ tx "leadingDigits" "0"
  ++ tx "format" "$1-$2-$3"
  ++ tx "intlFormat" "NA"
  ++ en "numberFormat"
  ++ en "availableFormats"
  ++ st "generalDesc" []
  ++ tx "nationalNumberPattern" "00[1-9]\d{6,14}|[25-9]\d{9}|(?:00|[1-9]\d\d)\d{6}"
  ++ en "generalDesc"
  ++ st "noInternationalDialling" []
  ++ em "possibleLengths" [("national", "[8-17]")]
  ++ tx "nationalNumberPattern" "00(?:777(?:[01]|(?:5|8\d)\d)|882[1245]\d\d)\d\d|00(?:37|66|78)\d{6,13}"
  ++ en "noInternationalDialling"
  ++ st "fixedLine" []
  ++ em "possibleLengths" [("national", "9")]
  ++ tx "exampleNumber" "312345678"
  ++ tx "nationalNumberPattern" "(?:1(?:1[235-8]|2[3-6]|3[3-9]|4[2-6]|[58][2-8]|6[2-7]|7[2-9]|9[1-9])|(?:2[2-9]|[36][1-9])\d|4(?:[2-578]\d|6[02-8]|9[2-59])|5(?:[2-589]\d|6[1-9]|7[2-8])|7(?:[25-9]\d|3[4-9]|4[02-9])|8(?:[2679]\d|3[2-9]|4[5-9]|5[1-9]|8[03-9])|9(?:[2-58]\d|[679][1-9]))\d{6}"
  ++ en "fixedLine"
  ++ st "mobile" []
  ++ em "possibleLengths" [("national", "10")]
  ++ tx "exampleNumber" "9012345678"
  ++ tx "nationalNumberPattern" "[6-9]0[1-9]\d{7}"
  ++ en "mobile"
  ++ st "pager" []
  ++ em "possibleLengths" [("national", "10")]
  ++ tx "exampleNumber" "2012345678"
  ++ tx "nationalNumberPattern" "20\d{8}"
  ++ en "pager"
  ++ st "tollFree" []
  ++ em "possibleLengths" [("national", "[8-17]")]
  ++ tx "exampleNumber" "120123456"
  ++ tx "nationalNumberPattern" "00777(?:[01]|5\d)\d\d|(?:00(?:7778|882[1245])|(?:120|800\d)\d\d)\d{4}|00(?:37|66|78)\d{6,13}"
  ++ en "tollFree"
  ++ st "premiumRate" []
  ++ em "possibleLengths" [("national", "9")]
  ++ tx "exampleNumber" "990123456"
  ++ tx "nationalNumberPattern" "990\d{6}"
  ++ en "premiumRate"
  ++ st "personalNumber" []
  ++ em "possibleLengths" [("national", "9")]
  ++ tx "exampleNumber" "601234567"
  ++ tx "nationalNumberPattern" "60\d{7}"
  ++ en "personalNumber"
  ++ st "voip" []
  ++ em "possibleLengths" [("national", "10")]
  ++ tx "exampleNumber" "5012345678"
  ++ tx "nationalNumberPattern" "50[1-9]\d{7}"
  ++ en "voip"
  ++ st "uan" []
  ++ em "possibleLengths" [("national", "9")]
  ++ tx "exampleNumber" "570123456"
  ++ tx "nationalNumberPattern" "570\d{6}"
  ++ en "uan"
  ++ en "territory".

Definition ev_111 : list event :=
  st "territory" [("id", "KE"); ("countryCode", "254"); ("internationalPrefix", "000"); ("nationalPrefix", "0"); ("mobileNumberPortableRegion", "true")]
  ++ st "availableFormats" []
  ++ st "numberFormat" [("pattern", "(\d{2})(\d{5,7})"); ("nationalPrefixFormattingRule", "$NP$FG")]
  ++ tx "leadingDigits" "[24-6]"
  ++ tx "format" "$1 $2"
  ++ en "numberFormat"
  ++ st "numberFormat" [("pattern", "(\d{3})(\d{6})"); ("nationalPrefixFormattingRule", "$NP$FG")]
  ++ tx "leadingDigits" "[17]"
  ++ tx "format" "$1 $2"
  ++ en "numberFormat"
  ++ st "numberFormat" [("pattern", "(\d{3})(\d{3})(\d{3,4})"); ("nationalPrefixFormattingRule", "$NP$FG")]
  ++ tx "leadingDigits" "[89]"
  ++ tx "format" "$1 $2 $3"
  ++ en "numberFormat"
  ++ en "availableFormats"
  ++ st "generalDesc" []
  ++ tx "nationalNumberPattern" "(?:[17]\d\d|900)\d{6}|(?:2|80)0\d{6,7}|[4-6]\d{6,8}"
  ++ en "generalDesc"
  ++ st "fixedLine" []
  ++ em "possibleLengths" [("national", "[7-9]")]
  ++ tx "exampleNumber" "202012345"
  ++ tx "nationalNumberPattern" "(?:4[245]|5[1-79]|6[01457-9])\d{5,7}|(?:4[136]|5[08]|62)\d{7}|(?:[24]0|66)\d{6,7}"
  ++ en "fixedLine"
  ++ st "mobile" []
  ++ em "possibleLengths" [("national", "9")]
  ++ tx "exampleNumber" "712123456"
  ++ tx "nationalNumberPattern" "(?:1(?:0[0-8]|1\d|2[014]|30|4[0-5])|7\d\d)\d{6}"
  ++ en "mobile"
  ++ st "tollFree" []
  ++ em "possibleLengths" [("national", "9,10")]
  ++ tx "exampleNumber" "800223456"
  ++ tx "nationalNumberPattern" "800[02-8]\d{5,6}"
  ++ en "tollFree"
  ++ st "premiumRate" []
  ++ em "possibleLengths" [("national", "9")]
  ++ tx "exampleNumber" "900223456"
  ++ tx "nationalNumberPattern" "900[02-9]\d{5}"
  ++ en "premiumRate"
  ++ en "territory".

Definition ev_112 : list event :=
  st "territory" [("id", "KG"); ("countryCode", "996"); ("internationalPrefix", "00"); ("nationalPrefix", "0")]
  ++ st "availableFormats" []
  ++ st "numberFormat" [("pattern", "(\d{4})(\d{5})"); ("nationalPrefixFormattingRule", "$NP$FG")]
  ++ tx "leadingDigits" "3(?:1[346]|[24-79])"
  ++ tx "format" "$1 $2"
  ++ en "numberFormat"
  ++ st "numberFormat" [("pattern", "(\d{3})(\d{3})(\d{3})"); ("nationalPrefixFormattingRule", "$NP$FG")]
  ++ tx "leadingDigits" "[235-79]|88"
  ++ tx "format" "$1 $2 $3"
  ++ en "numberFormat"
  ++ st "numberFormat" [("pattern", "(\d{3})(\d{3})(\d)(\d{2,3})"); ("nationalPrefixFormattingRule", "$NP$FG")]
  ++ tx "leadingDigits" "8"
  ++ tx "format" "$1 $2 $3 $4"
  ++ en "numberFormat"
  ++ en "availableFormats"
  ++ st "generalDesc" []
  ++ tx "nationalNumberPattern" "8\d{9}|[235-9]\d{8}"
  ++ en "generalDesc"
  ++ st "fixedLine" []
  ++ em "possibleLengths" [("national", "9"); ("localOnly", "5,6")]
  ++ tx "exampleNumber" "312123456"
  ++ tx "nationalNumberPattern" "312(?:5[0-79]\d|9(?:[0-689]\d|7[0-24-9]))\d{3}|(?:3(?:1(?:2[0-46-8]|3[1-9]|47|[56]\d)|2(?:22|3[0-479]|6[0-7])|4(?:22|5[6-9]|6\d)|5(?:22|3[4-7]|59|6\d)|6(?:22|5[35-7]|6\d)|7(?:22|3[468]|4[1-9]|59|[67]\d)|9(?:22|4[1-8]|6\d))|6(?:09|12|2[2-4])\d)\d{5}"
  ++ en "fixedLine"
  ++ st "mobile" []
  ++ em "possibleLengths" [("national", "9")]
  ++ tx "exampleNumber" "700123456"
  ++ tx "nationalNumberPattern" "312(?:58\d|973)\d{3}|(?:2(?:0[0-35]|2\d)|5[0-24-7]\d|600|7(?:[07]\d|55)|88[08]|9(?:12|9[05-9]))\d{6}"
  ++ en "mobile"
  ++ st "tollFree" []
  ++ em "possibleLengths" [("national", "9,10")]
  ++ tx "exampleNumber" "800123456"
  ++ tx "nationalNumberPattern" "800\d{6,7}"
  ++ en "tollFree"
  ++ en "territory".

Definition ev_113 : list event :=
  st "territory" [("id", "KH"); ("countryCode", "855"); ("internationalPrefix", "00[14-9]"); ("nationalPrefix", "0")]
  ++ st "availableFormats" []
  ++ st "numberFormat" [("pattern", "(\d{2})(\d{3})(\d{3,4})"); ("nationalPrefixFormattingRule", "$NP$FG")]
  ++ tx "leadingDigits" "[1-9]"
  ++ tx "format" "$1 $2 $3"
  ++ en "numberFormat"
  ++ st "numberFormat" [("pattern", "(\d{4})(\d{3})(\d{3})")]
  ++ tx "leadingDigits" "1"
  ++ tx "format" "$1 $2 $3"
  ++ en "numberFormat"
  ++ en "availableFormats"
  ++ st "generalDesc" []
  ++ tx "nationalNumberPattern" "1\d{9}|[1-9]\d{7,8}"
  ++ en "generalDesc"
  ++ st "fixedLine" []
  ++ em "possibleLengths" [("national", "8,9"); ("localOnly", "6,7")]
  ++ tx "exampleNumber" "23756789"
  ++ tx "nationalNumberPattern" "23(?:4(?:[2-4]|[56]\d)|[568]\d\d)\d{4}|23[236-9]\d{5}|(?:2[4-6]|3[2-6]|4[2-4]|[5-7][2-5])(?:(?:[237-9]|4[56]|5\d)\d{5}|6\d{5,6})"
  ++ en "fixedLine"
  ++ st "mobile" []
  ++ em "possibleLengths" [("national", "8,9")]
  ++ tx "exampleNumber" "91234567"
  ++ tx "nationalNumberPattern" "(?:(?:1[28]|3[18]|9[67])\d|6[016-9]|7(?:[07-9]|[16]\d)|8(?:[013-79]|8\d))\d{6}|(?:1\d|9[0-57-9])\d{6}|(?:2[3-6]|3[2-6]|4[2-4]|[5-7][2-5])48\d{5}"
  ++ en "mobile"
  ++ st "tollFree" []
  ++ em "possibleLengths" [("national", "10")]
  ++ tx "exampleNumber" "1800123456"
  ++ tx "nationalNumberPattern" "1800(?:1\d|2[019])\d{4}"
  ++ en "tollFree"
  ++ st "premiumRate" []
  ++ em "possibleLengths" [("national", "10")]
  ++ tx "exampleNumber" "1900123456"
  ++ tx "nationalNumberPattern" "1900(?:1\d|2[09])\d{4}"
  ++ en "premiumRate"
  ++ en "territory".

Definition ev_114 : list event :=
  st "territory" [("id", "KI"); ("countryCode", "686"); ("internationalPrefix", "00"); ("nationalPrefix", "0")]
  ++ st "generalDesc" []
  ++ tx "nationalNumberPattern" "(?:[37]\d|6[0-79])\d{6}|(?:[2-48]\d|50)\d{3}"
  ++ en "generalDesc"
  ++ st "fixedLine" []
  ++ em "possibleLengths" [("national", "5,8")]
  ++ tx "exampleNumber" "31234"
  ++ tx "nationalNumberPattern" "(?:[24]\d|3[1-9]|50|65(?:02[12]|12[56]|22[89]|[3-5]00)|7(?:27\d\d|3100|5(?:02[12]|12[56]|22[89]|[34](?:00|81)|500))|8[0-5])\d{3}"
  ++ en "fixedLine"
  ++ st "mobile" []
  ++ em "possibleLengths" [("national", "8")]
  ++ tx "exampleNumber" "72001234"
  ++ tx "nationalNumberPattern" "(?:6200[01]|7(?:310[1-9]|5(?:02[03-9]|12[0-47-9]|22[0-7]|[34](?:0[1-9]|8[02-9])|50[1-9])))\d{3}|(?:63\d\d|7(?:(?:[0146-9]\d|2[0-689])\d|3(?:[02-9]\d|1[1-9])|5(?:[0-2][013-9]|[34][1-79]|5[1-9]|[6-9]\d)))\d{4}"
  ++ en "mobile"
  ++ st "voip" []
  ++ em "possibleLengths" [("national", "8")]
  ++ tx "exampleNumber" "30010000"
  ++ tx "nationalNumberPattern" "30(?:0[01]\d\d|12(?:11|20))\d\d"
  ++ en "voip"
  ++ en "territory".

Definition ev_115 : list event :=
  st "territory" [("id", "KM"); ("countryCode", "269"); ("internationalPrefix", "00")]
  ++ st "availableFormats" []
  ++ st "numberFormat" [("pattern", "(\d{3})(\d{2})(\d{2})")]
  ++ tx "leadingDigits" "[3478]"
  ++ tx "format" "$1 $2 $3"
  ++ en "numberFormat"
  ++ en "availableFormats"
  ++ st "generalDesc" []
  ++ tx "nationalNumberPattern" "[3478]\d{6}"
  ++ en "generalDesc"
  ++ st "fixedLine" []
  ++ em "possibleLengths" [("national", "7"); ("localOnly", "4")]
  ++ tx "exampleNumber" "7712345"
  ++ tx "nationalNumberPattern" "7[4-7]\d{5}"
  ++ en "fixedLine"
  ++ st "mobile" []
  ++ em "possibleLengths" [("national", "7")]
  ++ tx "exampleNumber" "3212345"
  ++ tx "nationalNumberPattern" "[34]\d{6}"
  ++ en "mobile"
  ++ st "premiumRate" []
  ++ em "possibleLengths" [("national", "7")]
  ++ tx "exampleNumber" "8001234"
  ++ tx "nationalNumberPattern" "8\d{6}"
  ++ en "premiumRate"
  ++ en "territory".

Definition ev_116 : list event :=
  st "territory" [("id", "KN"); ("countryCode", "1"); ("leadingDigits", "869"); ("internationalPrefix", "011"); ("nationalPrefix", "1"); ("nationalPrefixForParsing", "([2-7]\d{6})$|1"); ("nationalPrefixTransformRule", "869$1"); ("mobileNumberPortableRegion", "true")]
  ++ st "generalDesc" []
  ++ tx "nationalNumberPattern" "(?:[58]\d\d|900)\d{7}"
  ++ en "generalDesc"
  ++ st "fixedLine" []
  ++ em "possibleLengths" [("national", "10"); ("localOnly", "7")]
  ++ tx "exampleNumber" "8692361234"
  ++ tx "nationalNumberPattern" "869(?:2(?:29|36)|302|4(?:6[015-9]|70)|56[5-7])\d{4}"
  ++ en "fixedLine"
  ++ st "mobile" []
  ++ em "possibleLengths" [("national", "10"); ("localOnly", "7")]
  ++ tx "exampleNumber" "8697652917"
  ++ tx "nationalNumberPattern" "869(?:48[89]|55[6-8]|66\d|76[02-7])\d{4}"
  ++ en "mobile"
  ++ st "tollFree" []
  ++ em "possibleLengths" [("national", "10")]
  ++ tx "exampleNumber" "8002123456"
  ++ tx "nationalNumberPattern" "8(?:00|33|44|55|66|77|88)[2-9]\d{6}"
  ++ en "tollFree"
  ++ st "premiumRate" []
  ++ em "possibleLengths" [("national", "10")]
  ++ tx "exampleNumber" "9002123456"
  ++ tx "nationalNumberPattern" "900[2-9]\d{6}"
  ++ en "premiumRate"
  ++ st "personalNumber" []
  ++ em "possibleLengths" [("national", "10")]
  ++ tx "exampleNumber" "5002345678"
  ++ tx "nationalNumberPattern" "52(?:3(?:[2-46-9][02-9]\d|5(?:[02-46-9]\d|5[0-46-9]))|4(?:[2-478][02-9]\d|5(?:[034]\d|2[024-9]|5[0-46-9])|6(?:0[1-9]|[2-9]\d)|9(?:[05-9]\d|2[0-5]|49)))\d{4}|52[34][2-9]1[02-9]\d{4}|5(?:00|2[125-9]|3[23]|44|66|77|88)[2-9]\d{6}"
  ++ en "personalNumber"
  ++ en "territory".

Definition ev_117 : list event :=
  st "territory" [("id", "KP"); ("countryCode", "850"); ("internationalPrefix", "00|99"); ("nationalPrefix", "0")]
  ++ st "availableFormats" []
  ++ st "numberFormat" [("pattern", "(\d{2})(\d{3})(\d{3})"); ("nationalPrefixFormattingRule", "$NP$FG")]
  ++ tx "leadingDigits" "8"
  ++ tx "format" "$1 $2 $3"
  ++ en "numberFormat"
  ++ st "numberFormat" [("pattern", "(\d)(\d{3})(\d{4})"); ("nationalPrefixFormattingRule", "$NP$FG")]
  ++ tx "leadingDigits" "[2-7]"
  ++ tx "format" "$1 $2 $3"
  ++ en "numberFormat"
  ++ st "numberFormat" [("pattern", "(\d{3})(\d{3})(\d{4})"); ("nationalPrefixFormattingRule", "$NP$FG")]
  ++ tx "leadingDigits" "1"
  ++ tx "format" "$1 $2 $3"
  ++ en "numberFormat"
  ++ en "availableFormats"
  ++ st "generalDesc" []
  ++ tx "nationalNumberPattern" "85\d{6}|(?:19\d|[2-7])\d{7}"
  ++ en "generalDesc"
  ++ st "noInternationalDialling" []
  ++ em "possibleLengths" [("national", "8")]
  ++ tx "nationalNumberPattern" "238[02-9]\d{4}|2(?:[0-24-9]\d|3[0-79])\d{5}"
  ++ en "noInternationalDialling"
  ++ st "fixedLine" []
  ++ em "possibleLengths" [("national", "8,10"); ("localOnly", "6,7")]
  ++ tx "exampleNumber" "21234567"
  ++ tx "nationalNumberPattern" "(?:(?:195|2)\d|3[19]|4[159]|5[37]|6[17]|7[39]|85)\d{6}"
  ++ en "fixedLine"
  ++ st "mobile" []
  ++ em "possibleLengths" [("national", "10")]
  ++ tx "exampleNumber" "1921234567"
  ++ tx "nationalNumberPattern" "19[1-3]\d{7}"
  ++ en "mobile"
  ++ en "territory".

Definition ev_118 : list event :=
  st "territory" [("id", "KR"); ("countryCode", "82"); ("internationalPrefix", "00(?:[125689]|3(?:[46]5|91)|7(?:00|27|3|55|6[126]))"); ("nationalPrefix", "0"); ("nationalPrefixForParsing", "0(8(?:[1-46-8]|5\d\d))?"); ("mobileNumberPortableRegion", "true")]
  ++ st "availableFormats" []
  ++ st "numberFormat" [("pattern", "(\d{5})"); ("nationalPrefixFormattingRule", "$NP$FG")]
  ++ tx "leadingDigits" "1[016-9]1"
  ++ tx "leadingDigits" "1[016-9]11"
  ++ tx "leadingDigits" "1[016-9]114"
  ++ tx "format" "$1"
  ++ tx "intlFormat" "NA"
  ++ en "numberFormat"
  ++ st "numberFormat" [("pattern", "(\d{2})(\d{3,4})"); ("nationalPrefixFormattingRule", "$NP$FG"); ("carrierCodeFormattingRule", "$NP$CC-$FG")]
  ++ tx "leadingDigits" "(?:3[1-3]|[46][1-4]|5[1-5])1"
  ++ tx "format" "$1-$2"
  ++ en "numberFormat"
  ++ st "numberFormat" [("pattern", "(\d{4})(\d{4})")]
  ++ tx "leadingDigits" "1"
  ++ tx "format" "$1-$2"
  ++ en "numberFormat"
  ++ st "numberFormat" [("pattern", "(\d)(\d{3,4})(\d{4})"); ("nationalPrefixFormattingRule", "$NP$FG"); ("carrierCodeFormattingRule", "$NP$CC-$FG")]
  ++ tx "leadingDigits" "2"
  ++ tx "format" "$1-$2-$3"
  ++ en "numberFormat"
  ++ st "numberFormat" [("pattern", "(\d{2})(\d{3})(\d{4})"); ("nationalPrefixFormattingRule", "$NP$FG"); ("carrierCodeFormattingRule", "$NP$CC-$FG")]
  ++ tx "leadingDigits" "[36]0|8"
  ++ tx "format" "$1-$2-$3"
  ++ en "numberFormat"
  ++ st "numberFormat" [("pattern", "(\d{2})(\d{3,4})(\d{4})"); ("nationalPrefixFormattingRule", "$NP$FG"); ("carrierCodeFormattingRule", "$NP$CC-$FG")]
  ++ tx "leadingDigits" "[1346]|5[1-5]"
  ++ tx "format" "$1-$2-$3"
  ++ en "numberFormat"
  ++ st "numberFormat" [("pattern", "(\d{2})(\d{4})(\d{4})"); ("nationalPrefixFormattingRule", "$NP$FG"); ("carrierCodeFormattingRule", "$NP$CC-$FG")]
  ++ tx "leadingDigits" "[57]"
  ++ tx "format" "$1-$2-$3"
  ++ en "numberFormat"
  ++ st "numberFormat" [("pattern", "(\d{5})(\d{3})(\d{3})")]
  ++ tx "leadingDigits" "003"
  ++ tx "leadingDigits" "0030"
  ++ tx "format" "$1 $2 $3"
  ++ tx "intlFormat" "NA"
  ++ en "numberFormat"
  ++ st "numberFormat" [("pattern", "(\d{2})(\d{5})(\d{4})"); ("nationalPrefixFormattingRule", "$NP$FG"); ("carrierCodeFormattingRule", "$NP$CC-$FG")]
  ++ tx "leadingDigits" "5"
  ++ tx "format" "$1-$2-$3"
  ++ en "numberFormat"
  ++ st "numberFormat" [("pattern", "(\d{5})(\d{3,4})(\d{4})")]
  ++ tx "leadingDigits" "0"
  ++ tx "format" "$1 $2 $3"
  ++ tx "intlFormat" "NA"
  ++ en "numberFormat"
  ++ st "numberFormat" [("pattern", "(\d{5})(\d{2})(\d{3})(\d{4})")]
  ++ tx "leadingDigits" "0"
  ++ tx "format" "$1 $2 $3 $4"
  ++ tx "intlFormat" "NA"
  ++ en "numberFormat"
  ++ en "availableFormats"
  ++ st "generalDesc" []
  ++ tx "nationalNumberPattern" "00[1-9]\d{8,11}|(?:[12]|5\d{3})\d{7}|[13-6]\d{9}|(?:[1-6]\d|80)\d{7}|[3-6]\d{4,5}|(?:00|7)0\d{8}"
  ++ en "generalDesc"
  ++ st "noInternationalDialling" []
  ++ em "possibleLengths" [("national", "[11-14]")]
  ++ tx "nationalNumberPattern" "00(?:3(?:08\d{6,7}|68\d{7})|798\d{7,9})"
  ++ en "noInternationalDialling"
  ++ st "fixedLine" []
  ++ em "possibleLengths" [("national", "5,6,[8-10]"); ("localOnly", "3,4,7")]
  ++ tx "exampleNumber" "22123456"
  ++ tx "nationalNumberPattern" "(?:2|3[1-3]|[46][1-4]|5[1-5])[1-9]\d{6,7}|(?:3[1-3]|[46][1-4]|5[1-5])1\d{2,3}"
  ++ en "fixedLine"
  ++ st "mobile" []
  ++ em "possibleLengths" [("national", "9,10")]
  ++ tx "exampleNumber" "1020000000"
  ++ tx "nationalNumberPattern" "1(?:05(?:[0-8]\d|9[0-6])|22[13]\d)\d{4,5}|1(?:0[0-46-9]|[16-9]\d|2[013-9])\d{6,7}"
  ++ en "mobile"
  ++ st "pager" []
  ++ em "possibleLengths" [("national", "9,10")]
  ++ tx "exampleNumber" "1523456789"
  ++ tx "nationalNumberPattern" "15\d{7,8}"
  ++ en "pager"
  ++ st "tollFree" []
  ++ em "possibleLengths" [("national", "9,[11-14]")]
  ++ tx "exampleNumber" "801234567"
  ++ tx "nationalNumberPattern" "00(?:308\d{6,7}|798\d{7,9})|(?:00368|[38]0)\d{7}"
  ++ en "tollFree"
  ++ st "premiumRate" []
  ++ em "possibleLengths" [("national", "9")]
  ++ tx "exampleNumber" "602345678"
  ++ tx "nationalNumberPattern" "60[2-9]\d{6}"
  ++ en "premiumRate"
  ++ st "personalNumber" []
  ++ em "possibleLengths" [("national", "10,11")]
  ++ tx "exampleNumber" "5012345678"
  ++ tx "nationalNumberPattern" "50\d{8,9}"
  ++ en "personalNumber"
  ++ st "voip" []
  ++ em "possibleLengths" [("national", "10")]
  ++ tx "exampleNumber" "7012345678"
  ++ tx "nationalNumberPattern" "70\d{8}"
  ++ en "voip"
  ++ st "uan" []
  ++ em "possibleLengths" [("national", "8")]
  ++ tx "exampleNumber" "15441234"
  ++ tx "nationalNumberPattern" "1(?:5(?:22|33|44|66|77|88|99)|6(?:[07]0|44|6[0168]|88)|8(?:00|33|55|77|99))\d{4}"
  ++ en "uan"
  ++ en "territory".

Definition ev_119 : list event :=
  st "territory" [("id", "KW"); ("countryCode", "965"); ("internationalPrefix", "00"); ("mobileNumberPortableRegion", "true")]
  ++ st "availableFormats" []
  ++ st "numberFormat" [("pattern", "(\d{4})(\d{3,4})")]
  ++ tx "leadingDigits" "[169]|2(?:[235]|4[1-35-9])|52"
  ++ tx "format" "$1 $2"
  ++ en "numberFormat"
  ++ st "numberFormat" [("pattern", "(\d{3})(\d{5})")]
  ++ tx "leadingDigits" "[245]"
  ++ tx "format" "$1 $2"
  ++ en "numberFormat"
  ++ en "availableFormats"
  ++ st "generalDesc" []
  ++ tx "nationalNumberPattern" "18\d{5}|(?:[2569]\d|41)\d{6}"
  ++ en "generalDesc"
  ++ st "fixedLine" []
  ++ em "possibleLengths" [("national", "8")]
  ++ tx "exampleNumber" "22345678"
  ++ tx "nationalNumberPattern" "2(?:[23]\d\d|4(?:[1-35-9]\d|44)|5(?:0[034]|[2-46]\d|5[1-3]|7[1-7]))\d{4}"
  ++ en "fixedLine"
  ++ st "mobile" []
  ++ em "possibleLengths" [("national", "8")]
  ++ tx "exampleNumber" "50012345"
  ++ tx "nationalNumberPattern" "(?:41\d\d|5(?:(?:[05]\d|1[0-7]|6[56])\d|2(?:22|5[25])|7(?:55|77)|88[58])|6(?:(?:0[034679]|5[015-9]|6\d)\d|1(?:00|11|6[16])|2[26]2|3[36]3|4[46]4|7(?:0[013-9]|[67]\d)|8[68]8|9(?:[069]\d|3[039]))|9(?:(?:[04679]\d|8[057-9])\d|1(?:00|1[01]|99)|2(?:00|2\d)|3(?:00|3[03])|5(?:00|5\d)))\d{4}"
  ++ en "mobile"
  ++ st "tollFree" []
  ++ em "possibleLengths" [("national", "7")]
  ++ tx "exampleNumber" "1801234"
  ++ tx "nationalNumberPattern" "18\d{5}"
  ++ en "tollFree"
  ++ en "territory".

Definition ev_120 : list event :=
  st "territory" [("id", "KY"); ("countryCode", "1"); ("leadingDigits", "345"); ("internationalPrefix", "011"); ("nationalPrefix", "1"); ("nationalPrefixForParsing", "([2-9]\d{6})$|1"); ("nationalPrefixTransformRule", "345$1"); ("mobileNumberPortableRegion", "true")]
  ++ st "generalDesc" []
  ++ tx "nationalNumberPattern" "(?:345|[58]\d\d|900)\d{7}"
  ++ en "generalDesc"
  ++ st "fixedLine" []
  ++ em "possibleLengths" [("national", "10"); ("localOnly", "7")]
  ++ tx "exampleNumber" "3452221234"
  ++ tx "nationalNumberPattern" "345(?:2(?:22|3[23]|44|66)|333|444|6(?:23|38|40)|7(?:30|4[35-79]|6[6-9]|77)|8(?:00|1[45]|4[89]|88)|9(?:14|4[035-9]))\d{4}"
  ++ en "fixedLine"
  ++ st "mobile" []
  ++ em "possibleLengths" [("national", "10"); ("localOnly", "7")]
  ++ tx "exampleNumber" "3453231234"
  ++ tx "nationalNumberPattern" "345(?:32[1-9]|4(?:1[2-6]|2[0-4])|5(?:1[67]|2[5-79]|4[6-9]|50|76)|649|82[56]|9(?:1[679]|2[2-9]|3[06-9]|90))\d{4}"
  ++ en "mobile"
  ++ st "tollFree" []
  ++ em "possibleLengths" [("national", "10")]
  ++ tx "exampleNumber" "8002345678"
  ++ tx "nationalNumberPattern" "8(?:00|33|44|55|66|77|88)[2-9]\d{6}"
  ++ en "tollFree"
  ++ st "premiumRate" []
  ++ em "possibleLengths" [("national", "10")]
  ++ tx "exampleNumber" "9002345678"
  ++ tx "nationalNumberPattern" "(?:345976|900[2-9]\d\d)\d{4}"
  ++ en "premiumRate"
  ++ st "personalNumber" []
  ++ em "possibleLengths" [("national", "10")]
  ++ tx "exampleNumber" "5002345678"
  ++ tx "nationalNumberPattern" "52(?:3(?:[2-46-9][02-9]\d|5(?:[02-46-9]\d|5[0-46-9]))|4(?:[2-478][02-9]\d|5(?:[034]\d|2[024-9]|5[0-46-9])|6(?:0[1-9]|[2-9]\d)|9(?:[05-9]\d|2[0-5]|49)))\d{4}|52[34][2-9]1[02-9]\d{4}|5(?:00|2[125-9]|3[23]|44|66|77|88)[2-9]\d{6}"
  ++ en "personalNumber"
  ++ en "territory".

Definition ev_121 : list event :=
  st "territory" [("id", "KZ"); ("countryCode", "7"); ("leadingDigits", "7"); ("preferredInternationalPrefix", "8~10"); ("internationalPrefix", "810"); ("nationalPrefix", "8"); ("mobileNumberPortableRegion", "true")]
  ++ st "generalDesc" []
  ++ tx "nationalNumberPattern" "8\d{13}|[78]\d{9}"
  ++ en "generalDesc"
  ++ st "noInternationalDialling" []
  ++ em "possibleLengths" [("national", "10")]
  ++ tx "nationalNumberPattern" "751\d{7}"
  ++ en "noInternationalDialling"
  ++ st "fixedLine" []
  ++ em "possibleLengths" [("national", "10"); ("localOnly", "[5-7]")]
  ++ tx "exampleNumber" "7123456789"
  ++ tx "nationalNumberPattern" "7(?:1(?:0(?:[23]\d|4[0-3]|59|63)|1(?:[23]\d|4[0-79]|59)|2(?:[23]\d|59)|3(?:2\d|3[0-79]|4[0-35-9]|59)|4(?:[24]\d|3[013-9]|5[1-9]|97)|5(?:2\d|3[1-9]|4[0-7]|59)|6(?:[2-4]\d|5[19]|61)|72\d|8(?:[27]\d|3[1-46-9]|4[0-5]|59))|2(?:1(?:[23]\d|4[46-9]|5[3469])|2(?:2\d|3[0679]|46|5[12679])|3(?:[2-4]\d|5[139])|4(?:2\d|3[1-35-9]|59)|5(?:[23]\d|4[0-8]|59|61)|6(?:2\d|3[1-9]|4[0-4]|59)|7(?:[2379]\d|40|5[279])|8(?:[23]\d|4[0-3]|59)|9(?:2\d|3[124578]|59)))\d{5}"
  ++ en "fixedLine"
  ++ st "mobile" []
  ++ em "possibleLengths" [("national", "10")]
  ++ tx "exampleNumber" "7710009998"
  ++ tx "nationalNumberPattern" "7(?:0[0-25-8]|47|6[0-4]|7[15-8]|85)\d{7}"
  ++ en "mobile"
  ++ st "tollFree" []
  ++ em "possibleLengths" [("national", "10,14")]
  ++ tx "exampleNumber" "8001234567"
  ++ tx "nationalNumberPattern" "8(?:00|108\d{3})\d{7}"
  ++ en "tollFree"
  ++ st "premiumRate" []
  ++ em "possibleLengths" [("national", "10")]
  ++ tx "exampleNumber" "8091234567"
  ++ tx "nationalNumberPattern" "809\d{7}"
  ++ en "premiumRate"
  ++ st "personalNumber" []
  ++ em "possibleLengths" [("national", "10")]
  ++ tx "exampleNumber" "8081234567"
  ++ tx "nationalNumberPattern" "808\d{7}"
  ++ en "personalNumber"
  ++ st "voip" []
  ++ em "possibleLengths" [("national", "10")]
  ++ tx "exampleNumber" "7511234567"
  ++ tx "nationalNumberPattern" "751\d{7}"
  ++ en "voip"
  ++ en "territory".

Definition ev_122 : list event :=
  st "territory" [("id", "LA"); ("countryCode", "856"); ("internationalPrefix", "00"); ("nationalPrefix", "0")]
  ++ st "availableFormats" []
  ++ st "numberFormat" [("pattern", "(\d{2})(\d{3})(\d{3})"); ("nationalPrefixFormattingRule", "$NP$FG")]
  ++ tx "leadingDigits" "2[13]|3[14]|[4-8]"
  ++ tx "format" "$1 $2 $3"
  ++ en "numberFormat"
  ++ st "numberFormat" [("pattern", "(\d{2})(\d{2})(\d{2})(\d{3})"); ("nationalPrefixFormattingRule", "$NP$FG")]
  ++ tx "leadingDigits" "3"
  ++ tx "format" "$1 $2 $3 $4"
  ++ en "numberFormat"
  ++ st "numberFormat" [("pattern", "(\d{2})(\d{2})(\d{3})(\d{3})"); ("nationalPrefixFormattingRule", "$NP$FG")]
  ++ tx "leadingDigits" "[23]"
  ++ tx "format" "$1 $2 $3 $4"
  ++ en "numberFormat"
  ++ en "availableFormats"
  ++ st "generalDesc" []
  ++ tx "nationalNumberPattern" "[23]\d{9}|3\d{8}|(?:[235-8]\d|41)\d{6}"
  ++ en "generalDesc"
  ++ st "fixedLine" []
  ++ em "possibleLengths" [("national", "8"); ("localOnly", "6")]
  ++ tx "exampleNumber" "21212862"
  ++ tx "nationalNumberPattern" "(?:2[13]|[35-7][14]|41|8[1468])\d{6}"
  ++ en "fixedLine"
  ++ st "mobile" []
  ++ em "possibleLengths" [("national", "9,10")]
  ++ tx "exampleNumber" "2023123456"
  ++ tx "nationalNumberPattern" "(?:20(?:[23579]\d|8[78])|30[24]\d)\d{6}|30\d{7}"
  ++ en "mobile"
  ++ en "territory".

Definition ev_123 : list event :=
  st "territory" [("id", "LB"); ("countryCode", "961"); ("internationalPrefix", "00"); ("nationalPrefix", "0")]
  ++ st "availableFormats" []
  ++ st "numberFormat" [("pattern", "(\d)(\d{3})(\d{3})"); ("nationalPrefixFormattingRule", "$NP$FG")]
  ++ tx "leadingDigits" "[13-69]|7(?:[2-57]|62|8[0-6]|9[04-9])|8[02-9]"
  ++ tx "format" "$1 $2 $3"
  ++ en "numberFormat"
  ++ st "numberFormat" [("pattern", "(\d{2})(\d{3})(\d{3})")]
  ++ tx "leadingDigits" "[27-9]"
  ++ tx "format" "$1 $2 $3"
  ++ en "numberFormat"
  ++ en "availableFormats"
  ++ st "generalDesc" []
  ++ tx "nationalNumberPattern" "[27-9]\d{7}|[13-9]\d{6}"
  ++ en "generalDesc"
  ++ st "fixedLine" []
  ++ em "possibleLengths" [("national", "7,8")]
  ++ tx "exampleNumber" "1123456"
  ++ tx "nationalNumberPattern" "7(?:62|8[0-6]|9[04-9])\d{4}|(?:[14-69]\d|2(?:[14-69]\d|[78][1-9])|7[2-57]|8[02-9])\d{5}"
  ++ en "fixedLine"
  ++ st "mobile" []
  ++ em "possibleLengths" [("national", "7,8")]
  ++ tx "exampleNumber" "71123456"
  ++ tx "nationalNumberPattern" "(?:(?:3|81)\d|7(?:[01]\d|6[013-9]|8[7-9]|9[0-4]))\d{5}"
  ++ en "mobile"
  ++ st "premiumRate" []
  ++ em "possibleLengths" [("national", "8")]
  ++ tx "exampleNumber" "90123456"
  ++ tx "nationalNumberPattern" "9[01]\d{6}"
  ++ en "premiumRate"
  ++ st "sharedCost" []
  ++ em "possibleLengths" [("national", "8")]
  ++ tx "exampleNumber" "80123456"
  ++ tx "nationalNumberPattern" "80\d{6}"
  ++ en "sharedCost"
  ++ en "territory".

Definition ev_124 : list event :=
  st "territory" [("id", "LC"); ("countryCode", "1"); ("leadingDigits", "758"); ("internationalPrefix", "011"); ("nationalPrefix", "1"); ("nationalPrefixForParsing", "([2-8]\d{6})$|1"); ("nationalPrefixTransformRule", "758$1"); ("mobileNumberPortableRegion", "true")]
  ++ st "generalDesc" []
  ++ tx "nationalNumberPattern" "(?:[58]\d\d|758|900)\d{7}"
  ++ en "generalDesc"
  ++ st "fixedLine" []
  ++ em "possibleLengths" [("national", "10"); ("localOnly", "7")]
  ++ tx "exampleNumber" "7584305678"
  ++ tx "nationalNumberPattern" "758(?:234|4(?:30|5\d|6[2-9]|8[0-2])|57[0-2]|(?:63|75)8)\d{4}"
  ++ en "fixedLine"
  ++ st "mobile" []
  ++ em "possibleLengths" [("national", "10"); ("localOnly", "7")]
  ++ tx "exampleNumber" "7582845678"
  ++ tx "nationalNumberPattern" "758(?:28[4-7]|384|4(?:6[01]|8[4-9])|5(?:1[89]|20|84)|7(?:1[2-9]|2\d|3[0-3])|812)\d{4}"
  ++ en "mobile"
  ++ st "tollFree" []
  ++ em "possibleLengths" [("national", "10")]
  ++ tx "exampleNumber" "8002123456"
  ++ tx "nationalNumberPattern" "8(?:00|33|44|55|66|77|88)[2-9]\d{6}"
  ++ en "tollFree"
  ++ st "premiumRate" []
  ++ em "possibleLengths" [("national", "10")]
  ++ tx "exampleNumber" "9002123456"
  ++ tx "nationalNumberPattern" "900[2-9]\d{6}"
  ++ en "premiumRate"
  ++ st "personalNumber" []
  ++ em "possibleLengths" [("national", "10")]
  ++ tx "exampleNumber" "5002345678"
  ++ tx "nationalNumberPattern" "52(?:3(?:[2-46-9][02-9]\d|5(?:[02-46-9]\d|5[0-46-9]))|4(?:[2-478][02-9]\d|5(?:[034]\d|2[024-9]|5[0-46-9])|6(?:0[1-9]|[2-9]\d)|9(?:[05-9]\d|2[0-5]|49)))\d{4}|52[34][2-9]1[02-9]\d{4}|5(?:00|2[125-9]|3[23]|44|66|77|88)[2-9]\d{6}"
  ++ en "personalNumber"
  ++ en "territory".

Definition ev_125 : list event :=
  st "territory" [("id", "LI"); ("countryCode", "423"); ("internationalPrefix", "00"); ("nationalPrefix", "0"); ("nationalPrefixForParsing", "(1001)|0")]
  ++ st "availableFormats" []
  ++ st "numberFormat" [("pattern", "(\d{3})(\d{2})(\d{2})"); ("carrierCodeFormattingRule", "$CC $FG")]
  ++ tx "leadingDigits" "[2379]|8(?:0[09]|7)"
  ++ tx "leadingDigits" "[2379]|8(?:0(?:02|9)|7)"
  ++ tx "format" "$1 $2 $3"
  ++ en "numberFormat"
  ++ st "numberFormat" [("pattern", "(\d{3})(\d{3})(\d{3})")]
  ++ tx "leadingDigits" "8"
  ++ tx "format" "$1 $2 $3"
  ++ en "numberFormat"
  ++ st "numberFormat" [("pattern", "(\d{2})(\d{3})(\d{4})"); ("carrierCodeFormattingRule", "$CC $FG")]
  ++ tx "leadingDigits" "69"
  ++ tx "format" "$1 $2 $3"
  ++ en "numberFormat"
  ++ st "numberFormat" [("pattern", "(\d{3})(\d{3})(\d{3})"); ("carrierCodeFormattingRule", "$CC $FG")]
  ++ tx "leadingDigits" "6"
  ++ tx "format" "$1 $2 $3"
  ++ en "numberFormat"
  ++ en "availableFormats"
  ++ st "generalDesc" []
  ++ tx "nationalNumberPattern" "[68]\d{8}|(?:[2378]\d|90)\d{5}"
  ++ en "generalDesc"
  ++ st "fixedLine" []
  ++ em "possibleLengths" [("national", "7")]
  ++ tx "exampleNumber" "2345678"
  ++ tx "nationalNumberPattern" "(?:2(?:01|1[27]|2[024]|3\d|6[02-578]|96)|3(?:[24]0|33|7[0135-7]|8[048]|9[0269]))\d{4}"
  ++ en "fixedLine"
  ++ st "mobile" []
  ++ em "possibleLengths" [("national", "7,9")]
  ++ tx "exampleNumber" "660234567"
  ++ tx "nationalNumberPattern" "(?:6(?:(?:4[5-9]|5\d)\d|6(?:[024-68]\d|1[01]|3[7-9]|70))\d|7(?:[37-9]\d|42|56))\d{4}"
  ++ en "mobile"
  ++ st "tollFree" []
  ++ em "possibleLengths" [("national", "7,9")]
  ++ tx "exampleNumber" "8002222"
  ++ tx "nationalNumberPattern" "8002[28]\d\d|80(?:05\d|9)\d{4}"
  ++ en "tollFree"
  ++ st "premiumRate" []
  ++ em "possibleLengths" [("national", "7")]
  ++ tx "exampleNumber" "9002222"
  ++ tx "nationalNumberPattern" "90(?:02[258]|1(?:23|3[14])|66[136])\d\d"
  ++ en "premiumRate"
  ++ st "uan" []
  ++ em "possibleLengths" [("national", "7")]
  ++ tx "exampleNumber" "8702812"
  ++ tx "nationalNumberPattern" "870(?:28|87)\d\d"
  ++ en "uan"
  ++ st "voicemail" []
  ++ em "possibleLengths" [("national", "9")]
  ++ tx "exampleNumber" "697861234"
  ++ tx "nationalNumberPattern" "697(?:42|56|[78]\d)\d{4}"
  ++ en "voicemail"
  ++ en "territory".

Definition ev_126 : list event :=
  st "territory" [("id", "LK"); ("countryCode", "94"); ("internationalPrefix", "00"); ("nationalPrefix", "0")]
  ++ st "availableFormats" []
  ++ st "numberFormat" [("pattern", "(\d{2})(\d{3})(\d{4})"); ("nationalPrefixFormattingRule", "$NP$FG")]
  ++ tx "leadingDigits" "7"
  ++ tx "format" "$1 $2 $3"
  ++ en "numberFormat"
  ++ st "numberFormat" [("pattern", "(\d{3})(\d{3})(\d{3})"); ("nationalPrefixFormattingRule", "$NP$FG")]
  ++ tx "leadingDigits" "[1-689]"
  ++ tx "format" "$1 $2 $3"
  ++ en "numberFormat"
  ++ en "availableFormats"
  ++ st "generalDesc" []
  ++ tx "nationalNumberPattern" "[1-9]\d{8}"
  ++ en "generalDesc"
  ++ st "fixedLine" []
  ++ em "possibleLengths" [("national", "9"); ("localOnly", "7")]
  ++ tx "exampleNumber" "112345678"
  ++ tx "nationalNumberPattern" "(?:12[2-9]|602|8[12]\d|9(?:1\d|22|9[245]))\d{6}|(?:11|2[13-7]|3[1-8]|4[157]|5[12457]|6[35-7])[2-57]\d{6}"
  ++ en "fixedLine"
  ++ st "mobile" []
  ++ em "possibleLengths" [("national", "9")]
  ++ tx "exampleNumber" "712345678"
  ++ tx "nationalNumberPattern" "7(?:[0-25-8]\d|4[0-4])\d{6}"
  ++ en "mobile"
  ++ st "uan" []
  ++ em "possibleLengths" [("national", "9")]
  ++ tx "exampleNumber" "197312345"
  ++ tx "nationalNumberPattern" "1973\d{5}"
  ++ en "uan"
  ++ en "territory".

Definition ev_127 : list event :=
  st "territory" [("id", "LR"); ("countryCode", "231"); ("internationalPrefix", "00"); ("nationalPrefix", "0")]
  ++ st "availableFormats" []
  ++ st "numberFormat" [("pattern", "(\d)(\d{3})(\d{3})"); ("nationalPrefixFormattingRule", "$NP$FG")]
  ++ tx "leadingDigits" "4[67]|[56]"
  ++ tx "format" "$1 $2 $3"
  ++ en "numberFormat"
  ++ st "numberFormat" [("pattern", "(\d{2})(\d{3})(\d{3})"); ("nationalPrefixFormattingRule", "$NP$FG")]
  ++ tx "leadingDigits" "2"
  ++ tx "format" "$1 $2 $3"
  ++ en "numberFormat"
  ++ st "numberFormat" [("pattern", "(\d{2})(\d{3})(\d{4})"); ("nationalPrefixFormattingRule", "$NP$FG")]
  ++ tx "leadingDigits" "[2-578]"
  ++ tx "format" "$1 $2 $3"
  ++ en "numberFormat"
  ++ en "availableFormats"
  ++ st "generalDesc" []
  ++ tx "nationalNumberPattern" "(?:[2457]\d|33|88)\d{7}|(?:2\d|[4-6])\d{6}"
  ++ en "generalDesc"
  ++ st "fixedLine" []
  ++ em "possibleLengths" [("national", "8")]
  ++ tx "exampleNumber" "21234567"
  ++ tx "nationalNumberPattern" "2\d{7}"
  ++ en "fixedLine"
  ++ st "mobile" []
  ++ em "possibleLengths" [("national", "7,9")]
  ++ tx "exampleNumber" "770123456"
  ++ tx "nationalNumberPattern" "(?:(?:(?:22|33)0|555|7(?:6[01]|7\d)|88\d)\d|4(?:240|[67]))\d{5}|[56]\d{6}"
  ++ en "mobile"
  ++ st "premiumRate" []
  ++ em "possibleLengths" [("national", "9")]
  ++ tx "exampleNumber" "332021234"
  ++ tx "nationalNumberPattern" "332(?:02|[34]\d)\d{4}"
  ++ en "premiumRate"
  ++ en "territory".

Definition events_b : list (list event) := [ev_64; ev_65; ev_66; ev_67; ev_68; ev_69; ev_70; ev_71; ev_72; ev_73; ev_74; ev_75; ev_76; ev_77; ev_78; ev_79; ev_80; ev_81; ev_82; ev_83; ev_84; ev_85; ev_86; ev_87; ev_88; ev_89; ev_90; ev_91; ev_92; ev_93; ev_94; ev_95; ev_96; ev_97; ev_98; ev_99; ev_100; ev_101; ev_102; ev_103; ev_104; ev_105; ev_106; ev_107; ev_108; ev_109; ev_110; ev_111; ev_112; ev_113; ev_114; ev_115; ev_116; ev_117; ev_118; ev_119; ev_120; ev_121; ev_122; ev_123; ev_124; ev_125; ev_126; ev_127].
