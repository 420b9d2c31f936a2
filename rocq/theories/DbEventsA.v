(** Generated by tools/gen_db.py from /repo/assets/PhoneNumberMetadata.xml: XML events,
    territories 1 to 64 of 254.  See the script for what is dropped. *)
From Verif Require Import Base CountryId Types Metadata Loader DbEventsDefs.
Local Open Scope bstr_scope.

Definition ev_0 : list event :=
  st "territory" [("id", "AC"); ("countryCode", "247"); ("internationalPrefix", "00")]
  ++ st "generalDesc" []
  ++ tx "nationalNumberPattern" "(?:[01589]\d|[46])\d{4}"
  ++ en "generalDesc"
  ++ st "fixedLine" []
  ++ em "possibleLengths" [("national", "5")]
  ++ tx "exampleNumber" "62889"
  ++ tx "nationalNumberPattern" "6[2-467]\d{3}"
  ++ en "fixedLine"
  ++ st "mobile" []
  ++ em "possibleLengths" [("national", "5")]
  ++ tx "exampleNumber" "40123"
  ++ tx "nationalNumberPattern" "4\d{4}"
  ++ en "mobile"
  ++ st "uan" []
  ++ em "possibleLengths" [("national", "6")]
  ++ tx "exampleNumber" "542011"
  ++ tx "nationalNumberPattern" "(?:0[1-9]|[1589]\d)\d{4}"
  ++ en "uan"
  ++ en "territory".

Definition ev_1 : list event :=
  st "territory" [("id", "AD"); ("countryCode", "376"); ("internationalPrefix", "00")]
  ++ st "availableFormats" []
  ++ st "numberFormat" [("pattern", "(\d{3})(\d{3})")]
  ++ tx "leadingDigits" "[135-9]"
  ++ tx "format" "$1 $2"
  ++ en "numberFormat"
  ++ st "numberFormat" [("pattern", "(\d{4})(\d{4})")]
  ++ tx "leadingDigits" "1"
  ++ tx "format" "$1 $2"
  ++ en "numberFormat"
  ++ st "numberFormat" [("pattern", "(\d{3})(\d{3})(\d{3})")]
  ++ tx "leadingDigits" "6"
  ++ tx "format" "$1 $2 $3"
  ++ en "numberFormat"
  ++ en "availableFormats"
  ++ st "generalDesc" []
  ++ tx "nationalNumberPattern" "(?:1|6\d)\d{7}|[135-9]\d{5}"
  ++ en "generalDesc"
  ++ st "noInternationalDialling" []
  ++ em "possibleLengths" [("national", "8")]
  ++ tx "nationalNumberPattern" "1800\d{4}"
  ++ en "noInternationalDialling"
  ++ st "fixedLine" []
  ++ em "possibleLengths" [("national", "6")]
  ++ tx "exampleNumber" "712345"
  ++ tx "nationalNumberPattern" "[78]\d{5}"
  ++ en "fixedLine"
  ++ st "mobile" []
  ++ em "possibleLengths" [("national", "6,9")]
  ++ tx "exampleNumber" "312345"
  ++ tx "nationalNumberPattern" "690\d{6}|[356]\d{5}"
  ++ en "mobile"
  ++ st "tollFree" []
  ++ em "possibleLengths" [("national", "8")]
  ++ tx "exampleNumber" "18001234"
  ++ tx "nationalNumberPattern" "180[02]\d{4}"
  ++ en "tollFree"
  ++ st "premiumRate" []
  ++ em "possibleLengths" [("national", "6")]
  ++ tx "exampleNumber" "912345"
  ++ tx "nationalNumberPattern" "[19]\d{5}"
  ++ en "premiumRate"
  ++ en "territory".

Definition ev_2 : list event :=
  st "territory" [("id", "AE"); ("countryCode", "971"); ("internationalPrefix", "00"); ("nationalPrefix", "0")]
  ++ st "availableFormats" []
  ++ st "numberFormat" [("pattern", "(\d{3})(\d{2,9})")]
  ++ tx "leadingDigits" "60|8"
  ++ tx "format" "$1 $2"
  ++ en "numberFormat"
  ++ st "numberFormat" [("pattern", "(\d)(\d{3})(\d{4})"); ("nationalPrefixFormattingRule", "$NP$FG")]
  ++ tx "leadingDigits" "[236]|[479][2-8]"
  ++ tx "format" "$1 $2 $3"
  ++ en "numberFormat"
  ++ st "numberFormat" [("pattern", "(\d{3})(\d)(\d{5})")]
  ++ tx "leadingDigits" "[479]"
  ++ tx "format" "$1 $2 $3"
  ++ en "numberFormat"
  ++ st "numberFormat" [("pattern", "(\d{2})(\d{3})(\d{4})"); ("nationalPrefixFormattingRule", "$NP$FG")]
  ++ tx "leadingDigits" "5"
  ++ tx "format" "$1 $2 $3"
  ++ en "numberFormat"
  ++ en "availableFormats"
  ++ st "generalDesc" []
  ++ tx "nationalNumberPattern" "(?:[4-7]\d|9[0-689])\d{7}|800\d{2,9}|[2-4679]\d{7}"
  ++ en "generalDesc"
  ++ st "fixedLine" []
  ++ em "possibleLengths" [("national", "8"); ("localOnly", "7")]
  ++ tx "exampleNumber" "22345678"
  ++ tx "nationalNumberPattern" "[2-4679][2-8]\d{6}"
  ++ en "fixedLine"
  ++ st "mobile" []
  ++ em "possibleLengths" [("national", "9")]
  ++ tx "exampleNumber" "501234567"
  ++ tx "nationalNumberPattern" "5[02-68]\d{7}"
  ++ en "mobile"
  ++ st "tollFree" []
  ++ em "possibleLengths" [("national", "[5-12]")]
  ++ tx "exampleNumber" "800123456"
  ++ tx "nationalNumberPattern" "400\d{6}|800\d{2,9}"
  ++ en "tollFree"
  ++ st "premiumRate" []
  ++ em "possibleLengths" [("national", "9")]
  ++ tx "exampleNumber" "900234567"
  ++ tx "nationalNumberPattern" "900[02]\d{5}"
  ++ en "premiumRate"
  ++ st "sharedCost" []
  ++ em "possibleLengths" [("national", "9")]
  ++ tx "exampleNumber" "700012345"
  ++ tx "nationalNumberPattern" "700[05]\d{5}"
  ++ en "sharedCost"
  ++ st "uan" []
  ++ em "possibleLengths" [("national", "9")]
  ++ tx "exampleNumber" "600212345"
  ++ tx "nationalNumberPattern" "600[25]\d{5}"
  ++ en "uan"
  ++ en "territory".

Definition ev_3 : list event :=
  st "territory" [("id", "AF"); ("countryCode", "93"); ("internationalPrefix", "00"); ("nationalPrefix", "0")]
  ++ st "availableFormats" []
  ++ st "numberFormat" [("pattern", "(\d{3})(\d{4})")]
  ++ tx "leadingDigits" "[1-9]"
  ++ tx "format" "$1 $2"
  ++ tx "intlFormat" "NA"
  ++ en "numberFormat"
  ++ st "numberFormat" [("pattern", "(\d{2})(\d{3})(\d{4})"); ("nationalPrefixFormattingRule", "$NP$FG")]
  ++ tx "leadingDigits" "[2-7]"
  ++ tx "format" "$1 $2 $3"
  ++ en "numberFormat"
  ++ en "availableFormats"
  ++ st "generalDesc" []
  ++ tx "nationalNumberPattern" "[2-7]\d{8}"
  ++ en "generalDesc"
  ++ st "fixedLine" []
  ++ em "possibleLengths" [("national", "9"); ("localOnly", "7")]
  ++ tx "exampleNumber" "234567890"
  ++ tx "nationalNumberPattern" "(?:[25][0-8]|[34][0-4]|6[0-5])[2-9]\d{6}"
  ++ en "fixedLine"
  ++ st "mobile" []
  ++ em "possibleLengths" [("national", "9"); ("localOnly", "7")]
  ++ tx "exampleNumber" "701234567"
  ++ tx "nationalNumberPattern" "7\d{8}"
  ++ en "mobile"
  ++ en "territory".

Definition ev_4 : list event :=
  st "territory" [("id", "AG"); ("countryCode", "1"); ("leadingDigits", "268"); ("internationalPrefix", "011"); ("nationalPrefix", "1"); ("nationalPrefixForParsing", "([457]\d{6})$|1"); ("nationalPrefixTransformRule", "268$1"); ("mobileNumberPortableRegion", "true")]
  ++ st "generalDesc" []
  ++ tx "nationalNumberPattern" "(?:268|[58]\d\d|900)\d{7}"
  ++ en "generalDesc"
  ++ st "fixedLine" []
  ++ em "possibleLengths" [("national", "10"); ("localOnly", "7")]
  ++ tx "exampleNumber" "2684601234"
  ++ tx "nationalNumberPattern" "268(?:4(?:6[0-38]|84)|56[0-2])\d{4}"
  ++ en "fixedLine"
  ++ st "mobile" []
  ++ em "possibleLengths" [("national", "10"); ("localOnly", "7")]
  ++ tx "exampleNumber" "2684641234"
  ++ tx "nationalNumberPattern" "268(?:464|7(?:1[3-9]|[28]\d|3[0246]|64|7[0-689]))\d{4}"
  ++ en "mobile"
  ++ st "pager" []
  ++ em "possibleLengths" [("national", "10"); ("localOnly", "7")]
  ++ tx "exampleNumber" "2684061234"
  ++ tx "nationalNumberPattern" "26840[69]\d{4}"
  ++ en "pager"
  ++ st "tollFree" []
  ++ em "possibleLengths" [("national", "10")]
  ++ tx "exampleNumber" "8002123456"
  ++ tx "nationalNumberPattern" "8(?:00|33|44|55|66|77|88)[2-9]\d{6}"
  ++ en "tollFree"
  ++ st "premiumRate" []
  ++ em "possibleLengths" [("national", "10")]
  ++ tx "exampleNumber" "9002123456"
  ++ tx "nationalNumberPattern" "900[2-9]\d{6}"
  ++ en "premiumRate"
  ++ st "personalNumber" []
  ++ em "possibleLengths" [("national", "10")]
  ++ tx "exampleNumber" "5002345678"
  ++ tx "nationalNumberPattern" "52(?:3(?:[2-46-9][02-9]\d|5(?:[02-46-9]\d|5[0-46-9]))|4(?:[2-478][02-9]\d|5(?:[034]\d|2[024-9]|5[0-46-9])|6(?:0[1-9]|[2-9]\d)|9(?:[05-9]\d|2[0-5]|49)))\d{4}|52[34][2-9]1[02-9]\d{4}|5(?:00|2[125-9]|3[23]|44|66|77|88)[2-9]\d{6}"
  ++ en "personalNumber"
  ++ st "voip" []
  ++ em "possibleLengths" [("national", "10"); ("localOnly", "7")]
  ++ tx "exampleNumber" "2684801234"
  ++ tx "nationalNumberPattern" "26848[01]\d{4}"
  ++ en "voip"
  ++ en "territory".

Definition ev_5 : list event :=
  st "territory" [("id", "AI"); ("countryCode", "1"); ("leadingDigits", "264"); ("internationalPrefix", "011"); ("nationalPrefix", "1"); ("nationalPrefixForParsing", "([2457]\d{6})$|1"); ("nationalPrefixTransformRule", "264$1"); ("mobileNumberPortableRegion", "true")]
  ++ st "generalDesc" []
  ++ tx "nationalNumberPattern" "(?:264|[58]\d\d|900)\d{7}"
  ++ en "generalDesc"
  ++ st "fixedLine" []
  ++ em "possibleLengths" [("national", "10"); ("localOnly", "7")]
  ++ tx "exampleNumber" "2644612345"
  ++ tx "nationalNumberPattern" "264(?:292|4(?:6[12]|9[78]))\d{4}"
  ++ en "fixedLine"
  ++ st "mobile" []
  ++ em "possibleLengths" [("national", "10"); ("localOnly", "7")]
  ++ tx "exampleNumber" "2642351234"
  ++ tx "nationalNumberPattern" "264(?:235|4(?:69|7[67])|5(?:3[6-9]|8[1-4])|7(?:29|72))\d{4}"
  ++ en "mobile"
  ++ st "pager" []
  ++ em "possibleLengths" [("national", "10"); ("localOnly", "7")]
  ++ tx "exampleNumber" "2647241234"
  ++ tx "nationalNumberPattern" "264724\d{4}"
  ++ en "pager"
  ++ st "tollFree" []
  ++ em "possibleLengths" [("national", "10")]
  ++ tx "exampleNumber" "8002123456"
  ++ tx "nationalNumberPattern" "8(?:00|33|44|55|66|77|88)[2-9]\d{6}"
  ++ en "tollFree"
  ++ st "premiumRate" []
  ++ em "possibleLengths" [("national", "10")]
  ++ tx "exampleNumber" "9002123456"
  ++ tx "nationalNumberPattern" "900[2-9]\d{6}"
  ++ en "premiumRate"
  ++ st "personalNumber" []
  ++ em "possibleLengths" [("national", "10")]
  ++ tx "exampleNumber" "5002345678"
  ++ tx "nationalNumberPattern" "52(?:3(?:[2-46-9][02-9]\d|5(?:[02-46-9]\d|5[0-46-9]))|4(?:[2-478][02-9]\d|5(?:[034]\d|2[024-9]|5[0-46-9])|6(?:0[1-9]|[2-9]\d)|9(?:[05-9]\d|2[0-5]|49)))\d{4}|52[34][2-9]1[02-9]\d{4}|5(?:00|2[125-9]|3[23]|44|66|77|88)[2-9]\d{6}"
  ++ en "personalNumber"
  ++ en "territory".

Definition ev_6 : list event :=
  st "territory" [("id", "AL"); ("countryCode", "355"); ("internationalPrefix", "00"); ("nationalPrefix", "0"); ("mobileNumberPortableRegion", "true")]
  ++ st "availableFormats" []
  ++ st "numberFormat" [("pattern", "(\d{3})(\d{3,4})"); ("nationalPrefixFormattingRule", "$NP$FG")]
  ++ tx "leadingDigits" "80|9"
  ++ tx "format" "$1 $2"
  ++ en "numberFormat"
  ++ st "numberFormat" [("pattern", "(\d)(\d{3})(\d{4})"); ("nationalPrefixFormattingRule", "$NP$FG")]
  ++ tx "leadingDigits" "4[2-6]"
  ++ tx "format" "$1 $2 $3"
  ++ en "numberFormat"
  ++ st "numberFormat" [("pattern", "(\d{2})(\d{3})(\d{3})"); ("nationalPrefixFormattingRule", "$NP$FG")]
  ++ tx "leadingDigits" "[2358][2-5]|4"
  ++ tx "format" "$1 $2 $3"
  ++ en "numberFormat"
  ++ st "numberFormat" [("pattern", "(\d{3})(\d{5})"); ("nationalPrefixFormattingRule", "$NP$FG")]
  ++ tx "leadingDigits" "[23578]"
  ++ tx "format" "$1 $2"
  ++ en "numberFormat"
  ++ st "numberFormat" [("pattern", "(\d{2})(\d{3})(\d{4})"); ("nationalPrefixFormattingRule", "$NP$FG")]
  ++ tx "leadingDigits" "6"
  ++ tx "format" "$1 $2 $3"
  ++ en "numberFormat"
  ++ en "availableFormats"
  ++ st "generalDesc" []
  ++ tx "nationalNumberPattern" "(?:700\d\d|900)\d{3}|8\d{5,7}|(?:[2-5]|6\d)\d{7}"
  ++ en "generalDesc"
  ++ st "fixedLine" []
  ++ em "possibleLengths" [("national", "8"); ("localOnly", "[5-7]")]
  ++ tx "exampleNumber" "22345678"
  ++ tx "nationalNumberPattern" "4505[0-2]\d{3}|(?:[2358][16-9]\d[2-9]|4410)\d{4}|(?:[2358][2-5][2-9]|4(?:[2-57-9][2-9]|6\d))\d{5}"
  ++ en "fixedLine"
  ++ st "mobile" []
  ++ em "possibleLengths" [("national", "9")]
  ++ tx "exampleNumber" "672123456"
  ++ tx "nationalNumberPattern" "6(?:[78][2-9]|9\d)\d{6}"
  ++ en "mobile"
  ++ st "tollFree" []
  ++ em "possibleLengths" [("national", "7")]
  ++ tx "exampleNumber" "8001234"
  ++ tx "nationalNumberPattern" "800\d{4}"
  ++ en "tollFree"
  ++ st "premiumRate" []
  ++ em "possibleLengths" [("national", "6")]
  ++ tx "exampleNumber" "900123"
  ++ tx "nationalNumberPattern" "900[1-9]\d\d"
  ++ en "premiumRate"
  ++ st "sharedCost" []
  ++ em "possibleLengths" [("national", "6")]
  ++ tx "exampleNumber" "808123"
  ++ tx "nationalNumberPattern" "808[1-9]\d\d"
  ++ en "sharedCost"
  ++ st "personalNumber" []
  ++ em "possibleLengths" [("national", "8")]
  ++ tx "exampleNumber" "70021234"
  ++ tx "nationalNumberPattern" "700[2-9]\d{4}"
  ++ en "personalNumber"
  ++ en "territory".

Definition ev_7 : list event :=
  st "territory" [("id", "AM"); ("countryCode", "374"); ("internationalPrefix", "00"); ("nationalPrefix", "0"); ("mobileNumberPortableRegion", "true")]
  ++ st "availableFormats" []
  ++ st "numberFormat" [("pattern", "(\d{3})(\d{2})(\d{3})"); ("nationalPrefixFormattingRule", "$NP $FG")]
  ++ tx "leadingDigits" "[89]0"
  ++ tx "format" "$1 $2 $3"
  ++ en "numberFormat"
  ++ st "numberFormat" [("pattern", "(\d{3})(\d{5})"); ("nationalPrefixFormattingRule", "($NP$FG)")]
  ++ tx "leadingDigits" "2|3[12]"
  ++ tx "format" "$1 $2"
  ++ en "numberFormat"
  ++ st "numberFormat" [("pattern", "(\d{2})(\d{6})"); ("nationalPrefixFormattingRule", "($NP$FG)")]
  ++ tx "leadingDigits" "1|47"
  ++ tx "format" "$1 $2"
  ++ en "numberFormat"
  ++ st "numberFormat" [("pattern", "(\d{2})(\d{6})"); ("nationalPrefixFormattingRule", "$NP$FG")]
  ++ tx "leadingDigits" "[3-9]"
  ++ tx "format" "$1 $2"
  ++ en "numberFormat"
  ++ en "availableFormats"
  ++ st "generalDesc" []
  ++ tx "nationalNumberPattern" "(?:[1-489]\d|55|60|77)\d{6}"
  ++ en "generalDesc"
  ++ st "fixedLine" []
  ++ em "possibleLengths" [("national", "8"); ("localOnly", "5,6")]
  ++ tx "exampleNumber" "10123456"
  ++ tx "nationalNumberPattern" "(?:(?:1[0-25]|47)\d|2(?:2[2-46]|3[1-8]|4[2-69]|5[2-7]|6[1-9]|8[1-7])|3[12]2)\d{5}"
  ++ en "fixedLine"
  ++ st "mobile" []
  ++ em "possibleLengths" [("national", "8")]
  ++ tx "exampleNumber" "77123456"
  ++ tx "nationalNumberPattern" "(?:33|4[1349]|55|77|88|9[13-9])\d{6}"
  ++ en "mobile"
  ++ st "tollFree" []
  ++ em "possibleLengths" [("national", "8")]
  ++ tx "exampleNumber" "80012345"
  ++ tx "nationalNumberPattern" "800\d{5}"
  ++ en "tollFree"
  ++ st "premiumRate" []
  ++ em "possibleLengths" [("national", "8")]
  ++ tx "exampleNumber" "90012345"
  ++ tx "nationalNumberPattern" "90[016]\d{5}"
  ++ en "premiumRate"
  ++ st "sharedCost" []
  ++ em "possibleLengths" [("national", "8")]
  ++ tx "exampleNumber" "80112345"
  ++ tx "nationalNumberPattern" "80[1-4]\d{5}"
  ++ en "sharedCost"
  ++ st "voip" []
  ++ em "possibleLengths" [("national", "8")]
  ++ tx "exampleNumber" "60271234"
  ++ tx "nationalNumberPattern" "60(?:2[78]|3[5-9]|4[02-9]|5[0-46-9]|[6-8]\d|9[0-2])\d{4}"
  ++ en "voip"
  ++ en "territory".

Definition ev_8 : list event :=
  st "territory" [("id", "AO"); ("countryCode", "244"); ("internationalPrefix", "00")]
  ++ st "availableFormats" []
  ++ st "numberFormat" [("pattern", "(\d{3})(\d{3})(\d{3})")]
  ++ tx "leadingDigits" "[29]"
  ++ tx "format" "$1 $2 $3"
  ++ en "numberFormat"
  ++ en "availableFormats"
  ++ st "generalDesc" []
  ++ tx "nationalNumberPattern" "[29]\d{8}"
  ++ en "generalDesc"
  ++ st "fixedLine" []
  ++ em "possibleLengths" [("national", "9")]
  ++ tx "exampleNumber" "222123456"
  ++ tx "nationalNumberPattern" "2\d(?:[0134][25-9]|[25-9]\d)\d{5}"
  ++ en "fixedLine"
  ++ st "mobile" []
  ++ em "possibleLengths" [("national", "9")]
  ++ tx "exampleNumber" "923123456"
  ++ tx "nationalNumberPattern" "9[1-79]\d{7}"
  ++ en "mobile"
  ++ en "territory".

Definition ev_9 : list event :=
  st "territory" [("id", "AR"); ("countryCode", "54"); ("internationalPrefix", "00"); ("nationalPrefix", "0"); ("nationalPrefixForParsing", "0?(?:(11|2(?:2(?:02?|[13]|2[13-79]|4[1-6]|5[2457]|6[124-8]|7[1-4]|8[13-6]|9[1267])|3(?:02?|1[467]|2[03-6]|3[13-8]|[49][2-6]|5[2-8]|[67])|4(?:7[3-578]|9)|6(?:[0136]|2[24-6]|4[6-8]?|5[15-8])|80|9(?:0[1-3]|[19]|2\d|3[1-6]|4[02568]?|5[2-4]|6[2-46]|72?|8[23]?))|3(?:3(?:2[79]|6|8[2578])|4(?:0[0-24-9]|[12]|3[5-8]?|4[24-7]|5[4-68]?|6[02-9]|7[126]|8[2379]?|9[1-36-8])|5(?:1|2[1245]|3[237]?|4[1-46-9]|6[2-4]|7[1-6]|8[2-5]?)|6[24]|7(?:[069]|1[1568]|2[15]|3[145]|4[13]|5[14-8]|7[2-57]|8[126])|8(?:[01]|2[15-7]|3[2578]?|4[13-6]|5[4-8]?|6[1-357-9]|7[36-8]?|8[5-8]?|9[124])))15)?"); ("nationalPrefixTransformRule", "9$1"); ("mobileNumberPortableRegion", "true")]
  ++ st "availableFormats" []
  ++ st "numberFormat" [("pattern", "(\d{3})")]
  ++ tx "leadingDigits" "0|1(?:0[0-35-7]|1[02-5]|2[015]|3[47]|4[478])|911"
  ++ tx "format" "$1"
  ++ tx "intlFormat" "NA"
  ++ en "numberFormat"
  ++ st "numberFormat" [("pattern", "(\d{2})(\d{4})")]
  ++ tx "leadingDigits" "[1-9]"
  ++ tx "format" "$1-$2"
  ++ tx "intlFormat" "NA"
  ++ en "numberFormat"
  ++ st "numberFormat" [("pattern", "(\d{3})(\d{4})")]
  ++ tx "leadingDigits" "[2-9]"
  ++ tx "format" "$1-$2"
  ++ tx "intlFormat" "NA"
  ++ en "numberFormat"
  ++ st "numberFormat" [("pattern", "(\d{4})(\d{4})")]
  ++ tx "leadingDigits" "[1-8]"
  ++ tx "format" "$1-$2"
  ++ tx "intlFormat" "NA"
  ++ en "numberFormat"
  ++ st "numberFormat" [("pattern", "(\d{4})(\d{2})(\d{4})"); ("nationalPrefixFormattingRule", "$NP$FG"); ("nationalPrefixOptionalWhenFormatting", "true")]
  ++ tx "leadingDigits" "2(?:2[024-9]|3[0-59]|47|6[245]|9[02-8])|3(?:3[28]|4[03-9]|5[2-46-8]|7[1-578]|8[2-9])"
  ++ tx "leadingDigits" "2(?:[23]02|6(?:[25]|4[6-8])|9(?:[02356]|4[02568]|72|8[23]))|3(?:3[28]|4(?:[04679]|3[5-8]|5[4-68]|8[2379])|5(?:[2467]|3[237]|8[2-5])|7[1-578]|8(?:[2469]|3[2578]|5[4-8]|7[36-8]|8[5-8]))|2(?:2[24-9]|3[1-59]|47)"
  ++ tx "leadingDigits" "2(?:[23]02|6(?:[25]|4(?:64|[78]))|9(?:[02356]|4(?:[0268]|5[2-6])|72|8[23]))|3(?:3[28]|4(?:[04679]|3[78]|5(?:4[46]|8)|8[2379])|5(?:[2467]|3[237]|8[23])|7[1-578]|8(?:[2469]|3[278]|5[56][46]|86[3-6]))|2(?:2[24-9]|3[1-59]|47)|38(?:[58][78]|7[378])|3(?:4[35][56]|58[45]|8(?:[38]5|54|76))[4-6]"
  ++ tx "leadingDigits" "2(?:[23]02|6(?:[25]|4(?:64|[78]))|9(?:[02356]|4(?:[0268]|5[2-6])|72|8[23]))|3(?:3[28]|4(?:[04679]|3(?:5(?:4[0-25689]|[56])|[78])|58|8[2379])|5(?:[2467]|3[237]|8(?:[23]|4(?:[45]|60)|5(?:4[0-39]|5|64)))|7[1-578]|8(?:[2469]|3[278]|54(?:4|5[13-7]|6[89])|86[3-6]))|2(?:2[24-9]|3[1-59]|47)|38(?:[58][78]|7[378])|3(?:454|85[56])[46]|3(?:4(?:36|5[56])|8(?:[38]5|76))[4-6]"
  ++ tx "format" "$1 $2-$3"
  ++ en "numberFormat"
  ++ st "numberFormat" [("pattern", "(\d{2})(\d{4})(\d{4})"); ("nationalPrefixFormattingRule", "$NP$FG"); ("nationalPrefixOptionalWhenFormatting", "true")]
  ++ tx "leadingDigits" "1"
  ++ tx "format" "$1 $2-$3"
  ++ en "numberFormat"
  ++ st "numberFormat" [("pattern", "(\d{3})(\d{3})(\d{4})"); ("nationalPrefixFormattingRule", "$NP$FG")]
  ++ tx "leadingDigits" "[68]"
  ++ tx "format" "$1-$2-$3"
  ++ en "numberFormat"
  ++ st "numberFormat" [("pattern", "(\d{3})(\d{3})(\d{4})"); ("nationalPrefixFormattingRule", "$NP$FG"); ("nationalPrefixOptionalWhenFormatting", "true")]
  ++ tx "leadingDigits" "[23]"
  ++ tx "format" "$1 $2-$3"
  ++ en "numberFormat"
  ++ st "numberFormat" [("pattern", "(\d)(\d{4})(\d{2})(\d{4})"); ("nationalPrefixFormattingRule", "$NP$FG")]
  ++ tx "leadingDigits" "9(?:2[2-469]|3[3-578])"
  ++ tx "leadingDigits" "9(?:2(?:2[024-9]|3[0-59]|47|6[245]|9[02-8])|3(?:3[28]|4[03-9]|5[2-46-8]|7[1-578]|8[2-9]))"
  ++ tx "leadingDigits" "9(?:2(?:[23]02|6(?:[25]|4[6-8])|9(?:[02356]|4[02568]|72|8[23]))|3(?:3[28]|4(?:[04679]|3[5-8]|5[4-68]|8[2379])|5(?:[2467]|3[237]|8[2-5])|7[1-578]|8(?:[2469]|3[2578]|5[4-8]|7[36-8]|8[5-8])))|92(?:2[24-9]|3[1-59]|47)"
  ++ tx "leadingDigits" "9(?:2(?:[23]02|6(?:[25]|4(?:64|[78]))|9(?:[02356]|4(?:[0268]|5[2-6])|72|8[23]))|3(?:3[28]|4(?:[04679]|3[78]|5(?:4[46]|8)|8[2379])|5(?:[2467]|3[237]|8[23])|7[1-578]|8(?:[2469]|3[278]|5(?:[56][46]|[78])|7[378]|8(?:6[3-6]|[78]))))|92(?:2[24-9]|3[1-59]|47)|93(?:4[35][56]|58[45]|8(?:[38]5|54|76))[4-6]"
  ++ tx "leadingDigits" "9(?:2(?:[23]02|6(?:[25]|4(?:64|[78]))|9(?:[02356]|4(?:[0268]|5[2-6])|72|8[23]))|3(?:3[28]|4(?:[04679]|3(?:5(?:4[0-25689]|[56])|[78])|5(?:4[46]|8)|8[2379])|5(?:[2467]|3[237]|8(?:[23]|4(?:[45]|60)|5(?:4[0-39]|5|64)))|7[1-578]|8(?:[2469]|3[278]|5(?:4(?:4|5[13-7]|6[89])|[56][46]|[78])|7[378]|8(?:6[3-6]|[78]))))|92(?:2[24-9]|3[1-59]|47)|93(?:4(?:36|5[56])|8(?:[38]5|76))[4-6]"
  ++ tx "format" "$2 15-$3-$4"
  ++ tx "intlFormat" "$1 $2 $3-$4"
  ++ en "numberFormat"
  ++ st "numberFormat" [("pattern", "(\d)(\d{2})(\d{4})(\d{4})"); ("nationalPrefixFormattingRule", "$NP$FG")]
  ++ tx "leadingDigits" "91"
  ++ tx "format" "$2 15-$3-$4"
  ++ tx "intlFormat" "$1 $2 $3-$4"
  ++ en "numberFormat"
  ++ st "numberFormat" [("pattern", "(\d{3})(\d{3})(\d{5})"); ("nationalPrefixFormattingRule", "$NP$FG")]
  ++ tx "leadingDigits" "8"
  ++ tx "format" "$1-$2-$3"
  ++ en "numberFormat"
  ++ st "numberFormat" [("pattern", "(\d)(\d{3})(\d{3})(\d{4})"); ("nationalPrefixFormattingRule", "$NP$FG")]
  ++ tx "leadingDigits" "9"
  ++ tx "format" "$2 15-$3-$4"
  ++ tx "intlFormat" "$1 $2 $3-$4"
  ++ en "numberFormat"
  ++ en "availableFormats"
  ++ st "generalDesc" []
  ++ tx "nationalNumberPattern" "(?:11|[89]\d\d)\d{8}|[2368]\d{9}"
  ++ en "generalDesc"
  ++ st "noInternationalDialling" []
  ++ em "possibleLengths" [("national", "10")]
  ++ tx "nationalNumberPattern" "810\d{7}"
  ++ en "noInternationalDialling"
  ++ st "fixedLine" []
  ++ em "possibleLengths" [("national", "10"); ("localOnly", "[6-8]")]
  ++ tx "exampleNumber" "1123456789"
  ++ tx "nationalNumberPattern" "3(?:7(?:1[15]|81)|8(?:21|4[16]|69|9[12]))[46]\d{5}|(?:2(?:2(?:2[59]|44|52)|3(?:26|44)|47[35]|9(?:[07]2|2[26]|34|46))|3327)[45]\d{5}|(?:2(?:657|9(?:54|66))|3(?:48[27]|7(?:55|77)|8(?:65|78)))[2-8]\d{5}|(?:2(?:284|3(?:02|23)|477|622|920)|3(?:4(?:46|89|92)|541))[2-7]\d{5}|(?:(?:11[1-8]|670)\d|2(?:2(?:0[45]|1[2-6]|3[3-6])|3(?:[06]4|7[45])|494|6(?:04|1[2-8]|[36][45]|4[3-6])|80[45]|9(?:[17][4-6]|[48][45]|9[3-6]))|3(?:364|4(?:1[2-8]|[25][4-6]|3[3-6]|84)|5(?:1[2-9]|[38][4-6])|6(?:2[45]|44)|7[069][45]|8(?:0[45]|1[2-7]|3[4-6]|5[3-6]|7[2-6]|8[3-68])))\d{6}|(?:2(?:2(?:62|81)|320|9(?:42|83))|3(?:329|4(?:62|7[16])|5(?:43|64)|7(?:18|5[17])))[2-6]\d{5}|2(?:2(?:21|4[23]|6[145]|7[1-4]|8[356]|9[267])|3(?:16|3[13-8]|43|5[346-8]|9[3-5])|6(?:2[46]|4[78]|5[1568])|9(?:03|2[1457-9]|3[1356]|4[08]|[56][23]|82))4\d{5}|(?:2(?:257|3(?:24|46|92)|9(?:01|23|64))|3(?:4(?:42|64)|5(?:25|37|4[47]|71)|7(?:35|72)|825))[3-6]\d{5}|(?:2(?:2(?:02|2[3467]|4[156]|5[45]|6[6-8]|91)|3(?:1[47]|25|[45][25]|96)|47[48]|625|932)|3(?:38[2578]|4(?:0[0-24-9]|3[78]|4[457]|58|6[035-9]|72|83|9[136-8])|5(?:2[124]|[368][23]|4[2689]|7[2-6])|7(?:16|2[15]|3[14]|4[13]|5[468]|7[3-5]|8[26])|8(?:2[67]|3[278]|4[3-5]|5[78]|6[1-378]|[78]7|94)))[4-6]\d{5}"
  ++ en "fixedLine"
  ++ st "mobile" []
  ++ em "possibleLengths" [("national", "10,11"); ("localOnly", "[6-8]")]
  ++ tx "exampleNumber" "91123456789"
  ++ tx "nationalNumberPattern" "93(?:7(?:1[15]|81)|8(?:21|4[16]|69|9[12]))[46]\d{5}|9(?:2(?:2(?:2[59]|44|52)|3(?:26|44)|47[35]|9(?:[07]2|2[26]|34|46))|3327)[45]\d{5}|9(?:2(?:657|9(?:54|66))|3(?:48[27]|7(?:55|77)|8(?:65|78)))[2-8]\d{5}|9(?:2(?:284|3(?:02|23)|477|622|920)|3(?:4(?:46|89|92)|541))[2-7]\d{5}|(?:675\d|9(?:11[1-8]\d|2(?:2(?:0[45]|1[2-6]|3[3-6])|3(?:[06]4|7[45])|494|6(?:04|1[2-8]|[36][45]|4[3-6])|80[45]|9(?:[17][4-6]|[48][45]|9[3-6]))|3(?:364|4(?:1[2-8]|[25][4-6]|3[3-6]|84)|5(?:1[2-9]|[38][4-6])|6(?:2[45]|44)|7[069][45]|8(?:0[45]|1[2-7]|3[4-6]|5[3-6]|7[2-6]|8[3-68]))))\d{6}|9(?:2(?:2(?:62|81)|320|9(?:42|83))|3(?:329|4(?:62|7[16])|5(?:43|64)|7(?:18|5[17])))[2-6]\d{5}|92(?:2(?:21|4[23]|6[145]|7[1-4]|8[356]|9[267])|3(?:16|3[13-8]|43|5[346-8]|9[3-5])|6(?:2[46]|4[78]|5[1568])|9(?:03|2[1457-9]|3[1356]|4[08]|[56][23]|82))4\d{5}|9(?:2(?:257|3(?:24|46|92)|9(?:01|23|64))|3(?:4(?:42|64)|5(?:25|37|4[47]|71)|7(?:35|72)|825))[3-6]\d{5}|9(?:2(?:2(?:02|2[3467]|4[156]|5[45]|6[6-8]|91)|3(?:1[47]|25|[45][25]|96)|47[48]|625|932)|3(?:38[2578]|4(?:0[0-24-9]|3[78]|4[457]|58|6[035-9]|72|83|9[136-8])|5(?:2[124]|[368][23]|4[2689]|7[2-6])|7(?:16|2[15]|3[14]|4[13]|5[468]|7[3-5]|8[26])|8(?:2[67]|3[278]|4[3-5]|5[78]|6[1-378]|[78]7|94)))[4-6]\d{5}"
  ++ en "mobile"
  ++ st "tollFree" []
  ++ em "possibleLengths" [("national", "10,11")]
  ++ tx "exampleNumber" "8001234567"
  ++ tx "nationalNumberPattern" "800\d{7,8}"
  ++ en "tollFree"
  ++ st "premiumRate" []
  ++ em "possibleLengths" [("national", "10")]
  ++ tx "exampleNumber" "6001234567"
  ++ tx "nationalNumberPattern" "60[04579]\d{7}"
  ++ en "premiumRate"
  ++ st "uan" []
  ++ em "possibleLengths" [("national", "10")]
  ++ tx "exampleNumber" "8101234567"
  ++ tx "nationalNumberPattern" "810\d{7}"
  ++ en "uan"
  ++ en "territory".

Definition ev_10 : list event :=
  st "territory" [("id", "AS"); ("countryCode", "1"); ("leadingDigits", "684"); ("internationalPrefix", "011"); ("nationalPrefix", "1"); ("nationalPrefixForParsing", "([267]\d{6})$|1"); ("nationalPrefixTransformRule", "684$1")]
  ++ st "generalDesc" []
  ++ tx "nationalNumberPattern" "(?:[58]\d\d|684|900)\d{7}"
  ++ en "generalDesc"
  ++ st "fixedLine" []
  ++ em "possibleLengths" [("national", "10"); ("localOnly", "7")]
  ++ tx "exampleNumber" "6846221234"
  ++ tx "nationalNumberPattern" "684(?:274|6(?:22|33|44|55|77|88|9[19]))\d{4}"
  ++ en "fixedLine"
  ++ st "mobile" []
  ++ em "possibleLengths" [("national", "10"); ("localOnly", "7")]
  ++ tx "exampleNumber" "6847331234"
  ++ tx "nationalNumberPattern" "684(?:2(?:48|5[2468]|7[246])|7(?:3[13]|70|82))\d{4}"
  ++ en "mobile"
  ++ st "tollFree" []
  ++ em "possibleLengths" [("national", "10")]
  ++ tx "exampleNumber" "8002123456"
  ++ tx "nationalNumberPattern" "8(?:00|33|44|55|66|77|88)[2-9]\d{6}"
  ++ en "tollFree"
  ++ st "premiumRate" []
  ++ em "possibleLengths" [("national", "10")]
  ++ tx "exampleNumber" "9002123456"
  ++ tx "nationalNumberPattern" "900[2-9]\d{6}"
  ++ en "premiumRate"
  ++ st "personalNumber" []
  ++ em "possibleLengths" [("national", "10")]
  ++ tx "exampleNumber" "5002345678"
  ++ tx "nationalNumberPattern" "52(?:3(?:[2-46-9][02-9]\d|5(?:[02-46-9]\d|5[0-46-9]))|4(?:[2-478][02-9]\d|5(?:[034]\d|2[024-9]|5[0-46-9])|6(?:0[1-9]|[2-9]\d)|9(?:[05-9]\d|2[0-5]|49)))\d{4}|52[34][2-9]1[02-9]\d{4}|5(?:00|2[125-9]|3[23]|44|66|77|88)[2-9]\d{6}"
  ++ en "personalNumber"
  ++ en "territory".

Definition ev_11 : list event :=
  st "territory" [("id", "AT"); ("countryCode", "43"); ("internationalPrefix", "00"); ("nationalPrefix", "0"); ("mobileNumberPortableRegion", "true")]
  ++ st "availableFormats" []
  ++ st "numberFormat" [("pattern", "(\d{4})")]
  ++ tx "leadingDigits" "14"
  ++ tx "format" "$1"
  ++ tx "intlFormat" "NA"
  ++ en "numberFormat"
  ++ st "numberFormat" [("pattern", "(\d)(\d{3,12})"); ("nationalPrefixFormattingRule", "$NP$FG")]
  ++ tx "leadingDigits" "1(?:11|[2-9])"
  ++ tx "format" "$1 $2"
  ++ en "numberFormat"
  ++ st "numberFormat" [("pattern", "(\d{3})(\d{2})"); ("nationalPrefixFormattingRule", "$NP$FG")]
  ++ tx "leadingDigits" "517"
  ++ tx "format" "$1 $2"
  ++ en "numberFormat"
  ++ st "numberFormat" [("pattern", "(\d{2})(\d{3,5})"); ("nationalPrefixFormattingRule", "$NP$FG")]
  ++ tx "leadingDigits" "5[079]"
  ++ tx "format" "$1 $2"
  ++ en "numberFormat"
  ++ st "numberFormat" [("pattern", "(\d{6})")]
  ++ tx "leadingDigits" "[18]"
  ++ tx "format" "$1"
  ++ tx "intlFormat" "NA"
  ++ en "numberFormat"
  ++ st "numberFormat" [("pattern", "(\d{3})(\d{3,10})"); ("nationalPrefixFormattingRule", "$NP$FG")]
  ++ tx "leadingDigits" "(?:31|4)6|51|6(?:48|5[0-3579]|[6-9])|7(?:20|32|8)|[89]"
  ++ tx "leadingDigits" "(?:31|4)6|51|6(?:485|5[0-3579]|[6-9])|7(?:20|32|8)|[89]"
  ++ tx "format" "$1 $2"
  ++ en "numberFormat"
  ++ st "numberFormat" [("pattern", "(\d{4})(\d{3,9})"); ("nationalPrefixFormattingRule", "$NP$FG")]
  ++ tx "leadingDigits" "[2-467]|5[2-6]"
  ++ tx "format" "$1 $2"
  ++ en "numberFormat"
  ++ st "numberFormat" [("pattern", "(\d{2})(\d{3})(\d{3,4})"); ("nationalPrefixFormattingRule", "$NP$FG")]
  ++ tx "leadingDigits" "5"
  ++ tx "format" "$1 $2 $3"
  ++ en "numberFormat"
  ++ st "numberFormat" [("pattern", "(\d{2})(\d{4})(\d{4,7})"); ("nationalPrefixFormattingRule", "$NP$FG")]
  ++ tx "leadingDigits" "5"
  ++ tx "format" "$1 $2 $3"
  ++ en "numberFormat"
  ++ en "availableFormats"
  ++ st "generalDesc" []
  ++ tx "nationalNumberPattern" "1\d{3,12}|2\d{6,12}|43(?:(?:0\d|5[02-9])\d{3,9}|2\d{4,5}|[3467]\d{4}|8\d{4,6}|9\d{4,7})|5\d{4,12}|8\d{7,12}|9\d{8,12}|(?:[367]\d|4[0-24-9])\d{4,11}"
  ++ en "generalDesc"
  ++ st "fixedLine" []
  ++ em "possibleLengths" [("national", "[4-13]"); ("localOnly", "3")]
  ++ tx "exampleNumber" "1234567890"
  ++ tx "nationalNumberPattern" "1(?:11\d|[2-9]\d{3,11})|(?:316|463)\d{3,10}|648[34]\d{3,9}|(?:51|66|73)2\d{3,10}|(?:2(?:1[467]|2[13-8]|5[2357]|6[1-46-8]|7[1-8]|8[124-7]|9[1458])|3(?:1[1-578]|3[23568]|4[5-7]|5[1378]|6[1-38]|8[3-68])|4(?:2[1-8]|35|7[1368]|8[2457])|5(?:2[1-8]|3[357]|4[147]|5[12578]|6[37])|6(?:13|2[1-47]|4[135-7]|5[468])|7(?:2[1-8]|35|4[13478]|5[68]|6[16-8]|7[1-6]|9[45]))\d{4,10}"
  ++ en "fixedLine"
  ++ st "mobile" []
  ++ em "possibleLengths" [("national", "[7-13]")]
  ++ tx "exampleNumber" "664123456"
  ++ tx "nationalNumberPattern" "6(?:485|(?:5[0-3579]|6[013-9]|[7-9]\d)\d)\d{3,9}"
  ++ en "mobile"
  ++ st "tollFree" []
  ++ em "possibleLengths" [("national", "[9-13]")]
  ++ tx "exampleNumber" "800123456"
  ++ tx "nationalNumberPattern" "800\d{6,10}"
  ++ en "tollFree"
  ++ st "premiumRate" []
  ++ em "possibleLengths" [("national", "[9-13]")]
  ++ tx "exampleNumber" "900123456"
  ++ tx "nationalNumberPattern" "(?:8[69][2-68]|9(?:0[01]|3[019]))\d{6,10}"
  ++ en "premiumRate"
  ++ st "sharedCost" []
  ++ em "possibleLengths" [("national", "[8-13]")]
  ++ tx "exampleNumber" "810123456"
  ++ tx "nationalNumberPattern" "8(?:10|2[018])\d{6,10}|828\d{5}"
  ++ en "sharedCost"
  ++ st "voip" []
  ++ em "possibleLengths" [("national", "[5-13]")]
  ++ tx "exampleNumber" "780123456"
  ++ tx "nationalNumberPattern" "5(?:0[1-9]|17|[79]\d)\d{2,10}|7[28]0\d{6,10}"
  ++ en "voip"
  ++ en "territory".

Definition ev_12 : list event :=
  st "territory" [("id", "AU"); ("mainCountryForCode", "true"); ("countryCode", "61"); ("preferredInternationalPrefix", "0011"); ("internationalPrefix", "001[14-689]|14(?:1[14]|34|4[17]|[56]6|7[47]|88)0011"); ("nationalPrefix", "0"); ("nationalPrefixForParsing", "(183[12])|0"); ("mobileNumberPortableRegion", "true")]
  ++ st "availableFormats" []
  ++ st "numberFormat" [("pattern", "(\d{2})(\d{3,4})"); ("nationalPrefixFormattingRule", "$NP$FG")]
  ++ tx "leadingDigits" "16"
  ++ tx "format" "$1 $2"
  ++ en "numberFormat"
  ++ st "numberFormat" [("pattern", "(\d{2})(\d{2})(\d{2})")]
  ++ tx "leadingDigits" "13"
  ++ tx "format" "$1 $2 $3"
  ++ tx "intlFormat" "NA"
  ++ en "numberFormat"
  ++ st "numberFormat" [("pattern", "(\d{3})(\d{3})")]
  ++ tx "leadingDigits" "19"
  ++ tx "format" "$1 $2"
  ++ tx "intlFormat" "NA"
  ++ en "numberFormat"
  ++ st "numberFormat" [("pattern", "(\d{3})(\d{4})")]
  ++ tx "leadingDigits" "180"
  ++ tx "leadingDigits" "1802"
  ++ tx "format" "$1 $2"
  ++ tx "intlFormat" "NA"
  ++ en "numberFormat"
  ++ st "numberFormat" [("pattern", "(\d{4})(\d{3,4})")]
  ++ tx "leadingDigits" "19"
  ++ tx "format" "$1 $2"
  ++ tx "intlFormat" "NA"
  ++ en "numberFormat"
  ++ st "numberFormat" [("pattern", "(\d{2})(\d{3})(\d{2,4})"); ("nationalPrefixFormattingRule", "$NP$FG")]
  ++ tx "leadingDigits" "16"
  ++ tx "format" "$1 $2 $3"
  ++ en "numberFormat"
  ++ st "numberFormat" [("pattern", "(\d{3})(\d{3})(\d{3})"); ("nationalPrefixFormattingRule", "$NP$FG")]
  ++ tx "leadingDigits" "14|4"
  ++ tx "format" "$1 $2 $3"
  ++ en "numberFormat"
  ++ st "numberFormat" [("pattern", "(\d)(\d{4})(\d{4})"); ("nationalPrefixFormattingRule", "($NP$FG)"); ("carrierCodeFormattingRule", "$CC ($FG)")]
  ++ tx "leadingDigits" "[2378]"
  ++ tx "format" "$1 $2 $3"
  ++ en "numberFormat"
  ++ st "numberFormat" [("pattern", "(\d{4})(\d{3})(\d{3})")]
  ++ tx "leadingDigits" "1(?:30|[89])"
  ++ tx "format" "$1 $2 $3"
  ++ en "numberFormat"
  ++ st "numberFormat" [("pattern", "(\d{4})(\d{4})(\d{4})")]
  ++ tx "leadingDigits" "130"
  ++ tx "format" "$1 $2 $3"
  ++ tx "intlFormat" "NA"
  ++ en "numberFormat"
  ++ en "availableFormats"
  ++ st "generalDesc" []
  ++ tx "nationalNumberPattern" "1(?:[0-79]\d{7}(?:\d(?:\d{2})?)?|8[0-24-9]\d{7})|[2-478]\d{8}|1\d{4,7}"
  ++ en "generalDesc"
  ++ st "noInternationalDialling" []
  ++ em "possibleLengths" [("national", "[6-8],10,12")]
  ++ tx "nationalNumberPattern" "1(?:3(?:00\d{5}|45[0-4])|802)\d{3}|1[38]00\d{6}|13\d{4}"
  ++ en "noInternationalDialling"
  ++ st "fixedLine" []
  ++ em "possibleLengths" [("national", "9"); ("localOnly", "8")]
  ++ tx "exampleNumber" "212345678"
  ++ tx "nationalNumberPattern" "(?:(?:241|349)0\d\d|8(?:51(?:0(?:0[03-9]|[12479]\d|3[2-9]|5[0-8]|6[1-9]|8[0-7])|1(?:[0235689]\d|1[0-69]|4[0-589]|7[0-47-9])|2(?:0[0-79]|[18][13579]|2[14-9]|3[0-46-9]|[4-6]\d|7[89]|9[0-4])|[34]\d\d)|91(?:(?:[0-58]\d|6[0135-9])\d|7(?:0[0-24-9]|[1-9]\d)|9(?:[0-46-9]\d|5[0-79]))))\d{3}|(?:2(?:[0-26-9]\d|3[0-8]|4[02-9]|5[0135-9])|3(?:[0-3589]\d|4[0-578]|6[1-9]|7[0-35-9])|7(?:[013-57-9]\d|2[0-8])|8(?:55|6[0-8]|[78]\d|9[02-9]))\d{6}"
  ++ en "fixedLine"
  ++ st "mobile" []
  ++ em "possibleLengths" [("national", "9")]
  ++ tx "exampleNumber" "412345678"
  ++ tx "nationalNumberPattern" "4(?:79[01]|83[0-36-9]|95[0-3])\d{5}|4(?:[0-36]\d|4[047-9]|[58][0-24-9]|7[02-8]|9[0-47-9])\d{6}"
  ++ en "mobile"
  ++ st "pager" []
  ++ em "possibleLengths" [("national", "[5-9]")]
  ++ tx "exampleNumber" "1631234"
  ++ tx "nationalNumberPattern" "163\d{2,6}"
  ++ en "pager"
  ++ st "tollFree" []
  ++ em "possibleLengths" [("national", "7,10")]
  ++ tx "exampleNumber" "1800123456"
  ++ tx "nationalNumberPattern" "180(?:0\d{3}|2)\d{3}"
  ++ en "tollFree"
  ++ st "premiumRate" []
  ++ em "possibleLengths" [("national", "10")]
  ++ tx "exampleNumber" "1900123456"
  ++ tx "nationalNumberPattern" "190[0-26]\d{6}"
  ++ en "premiumRate"
  ++ st "sharedCost" []
  ++ em "possibleLengths" [("national", "6,8,10,12")]
  ++ tx "exampleNumber" "1300123456"
  ++ tx "nationalNumberPattern" "13(?:00\d{6}(?:\d{2})?|45[0-4]\d{3})|13\d{4}"
  ++ en "sharedCost"
  ++ st "voip" []
  ++ em "possibleLengths" [("national", "9")]
  ++ tx "exampleNumber" "147101234"
  ++ tx "nationalNumberPattern" "14(?:5(?:1[0458]|[23][458])|71\d)\d{4}"
  ++ en "voip"
  ++ en "territory".

Definition ev_13 : list event :=
  st "territory" [("id", "AW"); ("countryCode", "297"); ("internationalPrefix", "00")]
  ++ st "availableFormats" []
  ++ st "numberFormat" [("pattern", "(\d{3})(\d{4})")]
  ++ tx "leadingDigits" "[25-9]"
  ++ tx "format" "$1 $2"
  ++ en "numberFormat"
  ++ en "availableFormats"
  ++ st "generalDesc" []
  ++ tx "nationalNumberPattern" "(?:[25-79]\d\d|800)\d{4}"
  ++ en "generalDesc"
  ++ st "fixedLine" []
  ++ em "possibleLengths" [("national", "7")]
  ++ tx "exampleNumber" "5212345"
  ++ tx "nationalNumberPattern" "5(?:2\d|8[1-9])\d{4}"
  ++ en "fixedLine"
  ++ st "mobile" []
  ++ em "possibleLengths" [("national", "7")]
  ++ tx "exampleNumber" "5601234"
  ++ tx "nationalNumberPattern" "(?:290|5[69]\d|6(?:[03]0|22|4[0-2]|[69]\d)|7(?:[34]\d|7[07])|9(?:6[45]|9[4-8]))\d{4}"
  ++ en "mobile"
  ++ st "tollFree" []
  ++ em "possibleLengths" [("national", "7")]
  ++ tx "exampleNumber" "8001234"
  ++ tx "nationalNumberPattern" "800\d{4}"
  ++ en "tollFree"
  ++ st "premiumRate" []
  ++ em "possibleLengths" [("national", "7")]
  ++ tx "exampleNumber" "9001234"
  ++ tx "nationalNumberPattern" "900\d{4}"
  ++ en "premiumRate"
  ++ st "voip" []
  ++ em "possibleLengths" [("national", "7")]
  ++ tx "exampleNumber" "5011234"
  ++ tx "nationalNumberPattern" "(?:28\d|501)\d{4}"
  ++ en "voip"
  ++ en "territory".

Definition ev_14 : list event :=
  st "territory" [("id", "AX"); ("countryCode", "358"); ("leadingDigits", "18"); ("preferredInternationalPrefix", "00"); ("internationalPrefix", "00|99(?:[01469]|5(?:[14]1|3[23]|5[59]|77|88|9[09]))"); ("nationalPrefix", "0")]
  ++ st "generalDesc" []
  ++ tx "nationalNumberPattern" "2\d{4,9}|35\d{4,5}|(?:60\d\d|800)\d{4,6}|7\d{5,11}|(?:[14]\d|3[0-46-9]|50)\d{4,8}"
  ++ en "generalDesc"
  ++ st "fixedLine" []
  ++ em "possibleLengths" [("national", "[6-9]")]
  ++ tx "exampleNumber" "181234567"
  ++ tx "nationalNumberPattern" "18[1-8]\d{3,6}"
  ++ en "fixedLine"
  ++ st "mobile" []
  ++ em "possibleLengths" [("national", "[6-10]")]
  ++ tx "exampleNumber" "412345678"
  ++ tx "nationalNumberPattern" "4946\d{2,6}|(?:4[0-8]|50)\d{4,8}"
  ++ en "mobile"
  ++ st "tollFree" []
  ++ em "possibleLengths" [("national", "[7-9]")]
  ++ tx "exampleNumber" "800123456"
  ++ tx "nationalNumberPattern" "800\d{4,6}"
  ++ en "tollFree"
  ++ st "premiumRate" []
  ++ em "possibleLengths" [("national", "8,9")]
  ++ tx "exampleNumber" "600123456"
  ++ tx "nationalNumberPattern" "[67]00\d{5,6}"
  ++ en "premiumRate"
  ++ st "uan" []
  ++ em "possibleLengths" [("national", "[5-12]")]
  ++ tx "exampleNumber" "10112345"
  ++ tx "nationalNumberPattern" "20\d{4,8}|60[12]\d{5,6}|7(?:099\d{4,5}|5[03-9]\d{3,7})|20[2-59]\d\d|(?:606|7(?:0[78]|1|3\d))\d{7}|(?:10|29|3[09]|70[1-5]\d)\d{4,8}"
  ++ en "uan"
  ++ en "territory".

Definition ev_15 : list event :=
  st "territory" [("id", "AZ"); ("countryCode", "994"); ("internationalPrefix", "00"); ("nationalPrefix", "0"); ("mobileNumberPortableRegion", "true")]
  ++ st "availableFormats" []
  ++ st "numberFormat" [("pattern", "(\d{3})(\d{2})(\d{2})")]
  ++ tx "leadingDigits" "[1-9]"
  ++ tx "format" "$1 $2 $3"
  ++ tx "intlFormat" "NA"
  ++ en "numberFormat"
  ++ st "numberFormat" [("pattern", "(\d{3})(\d{2})(\d{2})(\d{2})"); ("nationalPrefixFormattingRule", "$NP$FG")]
  ++ tx "leadingDigits" "90"
  ++ tx "format" "$1 $2 $3 $4"
  ++ en "numberFormat"
  ++ st "numberFormat" [("pattern", "(\d{2})(\d{3})(\d{2})(\d{2})"); ("nationalPrefixFormattingRule", "($NP$FG)")]
  ++ tx "leadingDigits" "1[28]|2|365|46"
  ++ tx "leadingDigits" "1[28]|2|365[45]|46"
  ++ tx "leadingDigits" "1[28]|2|365(?:4|5[02])|46"
  ++ tx "format" "$1 $2 $3 $4"
  ++ en "numberFormat"
  ++ st "numberFormat" [("pattern", "(\d{2})(\d{3})(\d{2})(\d{2})"); ("nationalPrefixFormattingRule", "$NP$FG")]
  ++ tx "leadingDigits" "[13-9]"
  ++ tx "format" "$1 $2 $3 $4"
  ++ en "numberFormat"
  ++ en "availableFormats"
  ++ st "generalDesc" []
  ++ tx "nationalNumberPattern" "365\d{6}|(?:[124579]\d|60|88)\d{7}"
  ++ en "generalDesc"
  ++ st "fixedLine" []
  ++ em "possibleLengths" [("national", "9"); ("localOnly", "7")]
  ++ tx "exampleNumber" "123123456"
  ++ tx "nationalNumberPattern" "(?:2[12]428|3655[02])\d{4}|(?:2(?:22[0-79]|63[0-28])|3654)\d{5}|(?:(?:1[28]|46)\d|2(?:[014-6]2|[23]3))\d{6}"
  ++ en "fixedLine"
  ++ st "mobile" []
  ++ em "possibleLengths" [("national", "9")]
  ++ tx "exampleNumber" "401234567"
  ++ tx "nationalNumberPattern" "36554\d{4}|(?:[16]0|4[04]|5[015]|7[07]|99)\d{7}"
  ++ en "mobile"
  ++ st "tollFree" []
  ++ em "possibleLengths" [("national", "9")]
  ++ tx "exampleNumber" "881234567"
  ++ tx "nationalNumberPattern" "88\d{7}"
  ++ en "tollFree"
  ++ st "premiumRate" []
  ++ em "possibleLengths" [("national", "9")]
  ++ tx "exampleNumber" "900200123"
  ++ tx "nationalNumberPattern" "900200\d{3}"
  ++ en "premiumRate"
  ++ en "territory".

Definition ev_16 : list event :=
  st "territory" [("id", "BA"); ("countryCode", "387"); ("internationalPrefix", "00"); ("nationalPrefix", "0"); ("mobileNumberPortableRegion", "true")]
  ++ st "availableFormats" []
  ++ st "numberFormat" [("pattern", "(\d{3})(\d{3})")]
  ++ tx "leadingDigits" "[2-9]"
  ++ tx "format" "$1-$2"
  ++ tx "intlFormat" "NA"
  ++ en "numberFormat"
  ++ st "numberFormat" [("pattern", "(\d{2})(\d{3})(\d{3})"); ("nationalPrefixFormattingRule", "$NP$FG")]
  ++ tx "leadingDigits" "6[1-3]|[7-9]"
  ++ tx "format" "$1 $2 $3"
  ++ en "numberFormat"
  ++ st "numberFormat" [("pattern", "(\d{2})(\d{3})(\d{3})"); ("nationalPrefixFormattingRule", "$NP$FG")]
  ++ tx "leadingDigits" "[3-5]|6[56]"
  ++ tx "format" "$1 $2-$3"
  ++ en "numberFormat"
  ++ st "numberFormat" [("pattern", "(\d{2})(\d{2})(\d{2})(\d{3})"); ("nationalPrefixFormattingRule", "$NP$FG")]
  ++ tx "leadingDigits" "6"
  ++ tx "format" "$1 $2 $3 $4"
  ++ en "numberFormat"
  ++ en "availableFormats"
  ++ st "generalDesc" []
  ++ tx "nationalNumberPattern" "6\d{8}|(?:[35689]\d|49|70)\d{6}"
  ++ en "generalDesc"
  ++ st "fixedLine" []
  ++ em "possibleLengths" [("national", "8"); ("localOnly", "6")]
  ++ tx "exampleNumber" "30212345"
  ++ tx "nationalNumberPattern" "(?:3(?:[05-79][2-9]|1[4579]|[23][24-9]|4[2-4689]|8[2457-9])|49[2-579]|5(?:0[2-49]|[13][2-9]|[268][2-4679]|4[4689]|5[2-79]|7[2-69]|9[2-4689]))\d{5}"
  ++ en "fixedLine"
  ++ st "mobile" []
  ++ em "possibleLengths" [("national", "8,9")]
  ++ tx "exampleNumber" "61123456"
  ++ tx "nationalNumberPattern" "6040\d{5}|6(?:03|[1-356]|44|7\d)\d{6}"
  ++ en "mobile"
  ++ st "tollFree" []
  ++ em "possibleLengths" [("national", "8")]
  ++ tx "exampleNumber" "80123456"
  ++ tx "nationalNumberPattern" "8[08]\d{6}"
  ++ en "tollFree"
  ++ st "premiumRate" []
  ++ em "possibleLengths" [("national", "8")]
  ++ tx "exampleNumber" "90123456"
  ++ tx "nationalNumberPattern" "9[0246]\d{6}"
  ++ en "premiumRate"
  ++ st "sharedCost" []
  ++ em "possibleLengths" [("national", "8")]
  ++ tx "exampleNumber" "82123456"
  ++ tx "nationalNumberPattern" "8[12]\d{6}"
  ++ en "sharedCost"
  ++ st "uan" []
  ++ em "possibleLengths" [("national", "8")]
  ++ tx "exampleNumber" "70341234"
  ++ tx "nationalNumberPattern" "703[235]0\d{3}|70(?:2[0-5]|3[0146]|[56]0)\d{4}"
  ++ en "uan"
  ++ en "territory".

Definition ev_17 : list event :=
  st "territory" [("id", "BB"); ("countryCode", "1"); ("leadingDigits", "246"); ("internationalPrefix", "011"); ("nationalPrefix", "1"); ("nationalPrefixForParsing", "([2-9]\d{6})$|1"); ("nationalPrefixTransformRule", "246$1"); ("mobileNumberPortableRegion", "true")]
  ++ st "generalDesc" []
  ++ tx "nationalNumberPattern" "(?:246|[58]\d\d|900)\d{7}"
  ++ en "generalDesc"
  ++ st "fixedLine" []
  ++ em "possibleLengths" [("national", "10"); ("localOnly", "7")]
  ++ tx "exampleNumber" "2464123456"
  ++ tx "nationalNumberPattern" "246521[0369]\d{3}|246(?:2(?:2[78]|7[0-4])|4(?:1[024-6]|2\d|3[2-9])|5(?:20|[34]\d|54|7[1-3])|6(?:2\d|38)|7[35]7|9(?:1[89]|63))\d{4}"
  ++ en "fixedLine"
  ++ st "mobile" []
  ++ em "possibleLengths" [("national", "10"); ("localOnly", "7")]
  ++ tx "exampleNumber" "2462501234"
  ++ tx "nationalNumberPattern" "246(?:(?:2(?:[3568]\d|4[0-57-9])|3(?:5[2-9]|6[0-6])|4(?:46|5\d)|69[5-7]|8(?:[2-5]\d|83))\d|52(?:1[147]|20))\d{3}"
  ++ en "mobile"
  ++ st "tollFree" []
  ++ em "possibleLengths" [("national", "10")]
  ++ tx "exampleNumber" "8002123456"
  ++ tx "nationalNumberPattern" "8(?:00|33|44|55|66|77|88)[2-9]\d{6}"
  ++ en "tollFree"
  ++ st "premiumRate" []
  ++ em "possibleLengths" [("national", "10"); ("localOnly", "7")]
  ++ tx "exampleNumber" "9002123456"
  ++ tx "nationalNumberPattern" "(?:246976|900[2-9]\d\d)\d{4}"
  ++ en "premiumRate"
  ++ st "personalNumber" []
  ++ em "possibleLengths" [("national", "10")]
  ++ tx "exampleNumber" "5002345678"
  ++ tx "nationalNumberPattern" "52(?:3(?:[2-46-9][02-9]\d|5(?:[02-46-9]\d|5[0-46-9]))|4(?:[2-478][02-9]\d|5(?:[034]\d|2[024-9]|5[0-46-9])|6(?:0[1-9]|[2-9]\d)|9(?:[05-9]\d|2[0-5]|49)))\d{4}|52[34][2-9]1[02-9]\d{4}|5(?:00|2[125-9]|3[23]|44|66|77|88)[2-9]\d{6}"
  ++ en "personalNumber"
  ++ st "voip" []
  ++ em "possibleLengths" [("national", "10"); ("localOnly", "7")]
  ++ tx "exampleNumber" "2463101234"
  ++ tx "nationalNumberPattern" "24631\d{5}"
  ++ en "voip"
  ++ st "uan" []
  ++ em "possibleLengths" [("national", "10"); ("localOnly", "7")]
  ++ tx "exampleNumber" "2464301234"
  ++ tx "nationalNumberPattern" "246(?:292|367|4(?:1[7-9]|3[01]|4[47-9]|67)|7(?:1[2-9]|2\d|3[016]|53))\d{4}"
  ++ en "uan"
  ++ en "territory".

Definition ev_18 : list event :=
  st "territory" [("id", "BD"); ("countryCode", "880"); ("internationalPrefix", "00"); ("nationalPrefix", "0")]
  ++ st "availableFormats" []
  ++ st "numberFormat" [("pattern", "(\d{2})(\d{4,6})"); ("nationalPrefixFormattingRule", "$NP$FG")]
  ++ tx "leadingDigits" "31[5-8]|[459]1"
  ++ tx "format" "$1-$2"
  ++ en "numberFormat"
  ++ st "numberFormat" [("pattern", "(\d{3})(\d{3,7})"); ("nationalPrefixFormattingRule", "$NP$FG")]
  ++ tx "leadingDigits" "3(?:[67]|8[013-9])|4(?:6[168]|7|[89][18])|5(?:6[128]|9)|6(?:[15]|28|4[14])|7[2-589]|8(?:0[014-9]|[12])|9[358]|(?:3[2-5]|4[235]|5[2-578]|6[0389]|76|8[3-7]|9[24])1|(?:44|66)[01346-9]"
  ++ tx "format" "$1-$2"
  ++ en "numberFormat"
  ++ st "numberFormat" [("pattern", "(\d{4})(\d{3,6})"); ("nationalPrefixFormattingRule", "$NP$FG")]
  ++ tx "leadingDigits" "[13-9]|2[23]"
  ++ tx "format" "$1-$2"
  ++ en "numberFormat"
  ++ st "numberFormat" [("pattern", "(\d)(\d{7,8})"); ("nationalPrefixFormattingRule", "$NP$FG")]
  ++ tx "leadingDigits" "2"
  ++ tx "format" "$1-$2"
  ++ en "numberFormat"
  ++ en "availableFormats"
  ++ st "generalDesc" []
  ++ tx "nationalNumberPattern" "[1-469]\d{9}|8[0-79]\d{7,8}|[2-79]\d{8}|[2-9]\d{7}|[3-9]\d{6}|[57-9]\d{5}"
  ++ en "generalDesc"
  ++ st "fixedLine" []
  ++ em "possibleLengths" [("national", "[6-10]")]
  ++ tx "exampleNumber" "27111234"
  ++ tx "nationalNumberPattern" "(?:4(?:31\d\d|423)|5222)\d{3}(?:\d{2})?|8332[6-9]\d\d|(?:3(?:03[56]|224)|4(?:22[25]|653))\d{3,4}|(?:3(?:42[47]|529|823)|4(?:027|525|65(?:28|8))|562|6257|7(?:1(?:5[3-5]|6[12]|7[156]|89)|22[589]56|32|42675|52(?:[25689](?:56|8)|[347]8)|71(?:6[1267]|75|89)|92374)|82(?:2[59]|32)56|9(?:03[23]56|23(?:256|373)|31|5(?:1|2[4589]56)))\d{3}|(?:3(?:02[348]|22[35]|324|422)|4(?:22[67]|32[236-9]|6(?:2[46]|5[57])|953)|5526|6(?:024|6655)|81)\d{4,5}|(?:2(?:7(?:1[0-267]|2[0-289]|3[0-29]|4[01]|5[1-3]|6[013]|7[0178]|91)|8(?:0[125]|1[1-6]|2[0157-9]|3[1-69]|41|6[1-35]|7[1-5]|8[1-8]|9[0-6])|9(?:0[0-2]|1[0-4]|2[568]|3[3-6]|5[5-7]|6[0136-9]|7[0-7]|8[014-9]))|3(?:0(?:2[025-79]|3[2-4])|181|22[12]|32[2356]|824)|4(?:02[09]|22[348]|32[045]|523|6(?:27|54))|666(?:22|53)|7(?:22[57-9]|42[56]|82[35])8|8(?:0[124-9]|2(?:181|2[02-4679]8)|4[12]|[5-7]2)|9(?:[04]2|2(?:2|328)|81))\d{4}|(?:2(?:[23]\d|[45])\d\d|3(?:1(?:2[5-7]|[5-7])|425|822)|4(?:033|1\d|[257]1|332|4(?:2[246]|5[25])|6(?:2[35]|56|62)|8(?:23|54)|92[2-5])|5(?:02[03489]|22[457]|32[35-79]|42[46]|6(?:[18]|53)|724|826)|6(?:023|2(?:2[2-5]|5[3-5]|8)|32[3478]|42[34]|52[47]|6(?:[18]|6(?:2[34]|5[24]))|[78]2[2-5]|92[2-6])|7(?:02|21\d|[3-589]1|6[12]|72[24])|8(?:217|3[12]|[5-7]1)|9[24]1)\d{5}|(?:(?:3[2-8]|5[2-57-9]|6[03-589])1|4[4689][18])\d{5}|[59]1\d{5}"
  ++ en "fixedLine"
  ++ st "mobile" []
  ++ em "possibleLengths" [("national", "10")]
  ++ tx "exampleNumber" "1812345678"
  ++ tx "nationalNumberPattern" "(?:1[13-9]\d|644)\d{7}|(?:3[78]|44|66)[02-9]\d{7}"
  ++ en "mobile"
  ++ st "tollFree" []
  ++ em "possibleLengths" [("national", "10")]
  ++ tx "exampleNumber" "8001234567"
  ++ tx "nationalNumberPattern" "80[03]\d{7}"
  ++ en "tollFree"
  ++ st "voip" []
  ++ em "possibleLengths" [("national", "10")]
  ++ tx "exampleNumber" "9604123456"
  ++ tx "nationalNumberPattern" "96(?:0[469]|1[0-47]|3[389]|43|6[69]|7[78])\d{6}"
  ++ en "voip"
  ++ en "territory".

Definition ev_19 : list event :=
  st "territory" [("id", "BE"); ("countryCode", "32"); ("internationalPrefix", "00"); ("nationalPrefix", "0"); ("mobileNumberPortableRegion", "true")]
  ++ st "availableFormats" []
  ++ st "numberFormat" [("pattern", "(\d{3})(\d{2})(\d{3})"); ("nationalPrefixFormattingRule", "$NP$FG")]
  ++ tx "leadingDigits" "(?:80|9)0"
  ++ tx "format" "$1 $2 $3"
  ++ en "numberFormat"
  ++ st "numberFormat" [("pattern", "(\d)(\d{3})(\d{2})(\d{2})"); ("nationalPrefixFormattingRule", "$NP$FG")]
  ++ tx "leadingDigits" "[239]|4[23]"
  ++ tx "format" "$1 $2 $3 $4"
  ++ en "numberFormat"
  ++ st "numberFormat" [("pattern", "(\d{2})(\d{2})(\d{2})(\d{2})"); ("nationalPrefixFormattingRule", "$NP$FG")]
  ++ tx "leadingDigits" "[15-8]"
  ++ tx "format" "$1 $2 $3 $4"
  ++ en "numberFormat"
  ++ st "numberFormat" [("pattern", "(\d{3})(\d{2})(\d{2})(\d{2})"); ("nationalPrefixFormattingRule", "$NP$FG")]
  ++ tx "leadingDigits" "4"
  ++ tx "format" "$1 $2 $3 $4"
  ++ en "numberFormat"
  ++ en "availableFormats"
  ++ st "generalDesc" []
  ++ tx "nationalNumberPattern" "4\d{8}|[1-9]\d{7}"
  ++ en "generalDesc"
  ++ st "fixedLine" []
  ++ em "possibleLengths" [("national", "8")]
  ++ tx "exampleNumber" "12345678"
  ++ tx "nationalNumberPattern" "80[2-8]\d{5}|(?:1[0-69]|[23][2-8]|4[23]|5\d|6[013-57-9]|71|8[1-79]|9[2-4])\d{6}"
  ++ en "fixedLine"
  ++ st "mobile" []
  ++ em "possibleLengths" [("national", "9")]
  ++ tx "exampleNumber" "450001234"
  ++ tx "nationalNumberPattern" "4[5-9]\d{7}"
  ++ en "mobile"
  ++ st "tollFree" []
  ++ em "possibleLengths" [("national", "8")]
  ++ tx "exampleNumber" "80012345"
  ++ tx "nationalNumberPattern" "800[1-9]\d{4}"
  ++ en "tollFree"
  ++ st "premiumRate" []
  ++ em "possibleLengths" [("national", "8")]
  ++ tx "exampleNumber" "90012345"
  ++ tx "nationalNumberPattern" "(?:70(?:2[0-57]|3[04-7]|44|6[04-69]|7[0579])|90\d\d)\d{4}"
  ++ en "premiumRate"
  ++ st "sharedCost" []
  ++ em "possibleLengths" [("national", "8")]
  ++ tx "exampleNumber" "78791234"
  ++ tx "nationalNumberPattern" "7879\d{4}"
  ++ en "sharedCost"
  ++ st "uan" []
  ++ em "possibleLengths" [("national", "8")]
  ++ tx "exampleNumber" "78102345"
  ++ tx "nationalNumberPattern" "78(?:0[578]|1[014-8]|2[25]|3[15-8]|48|5[05]|60|7[06-8]|9\d)\d{4}"
  ++ en "uan"
  ++ en "territory".

Definition ev_20 : list event :=
  st "territory" [("id", "BF"); ("countryCode", "226"); ("internationalPrefix", "00")]
  ++ st "availableFormats" []
  ++ st "numberFormat" [("pattern", "(\d{2})(\d{2})(\d{2})(\d{2})")]
  ++ tx "leadingDigits" "[024-7]"
  ++ tx "format" "$1 $2 $3 $4"
  ++ en "numberFormat"
  ++ en "availableFormats"
  ++ st "generalDesc" []
  ++ tx "nationalNumberPattern" "[024-7]\d{7}"
  ++ en "generalDesc"
  ++ st "fixedLine" []
  ++ em "possibleLengths" [("national", "8")]
  ++ tx "exampleNumber" "20491234"
  ++ tx "nationalNumberPattern" "2(?:0(?:49|5[23]|6[5-7]|9[016-9])|4(?:4[569]|5[4-6]|6[5-7]|7[0179])|5(?:[34]\d|50|6[5-8]))\d{4}"
  ++ en "fixedLine"
  ++ st "mobile" []
  ++ em "possibleLengths" [("national", "8")]
  ++ tx "exampleNumber" "70123456"
  ++ tx "nationalNumberPattern" "(?:0[1-7]|4[4-6]|5[0-8]|[67]\d)\d{6}"
  ++ en "mobile"
  ++ en "territory".

Definition ev_21 : list event :=
  st "territory" [("id", "BG"); ("countryCode", "359"); ("internationalPrefix", "00"); ("nationalPrefix", "0"); ("mobileNumberPortableRegion", "true")]
  ++ st "availableFormats" []
  ++ st "numberFormat" [("pattern", "(\d{6})")]
  ++ tx "leadingDigits" "1"
  ++ tx "format" "$1"
  ++ tx "intlFormat" "NA"
  ++ en "numberFormat"
  ++ st "numberFormat" [("pattern", "(\d)(\d)(\d{2})(\d{2})"); ("nationalPrefixFormattingRule", "$NP$FG")]
  ++ tx "leadingDigits" "2"
  ++ tx "format" "$1 $2 $3 $4"
  ++ en "numberFormat"
  ++ st "numberFormat" [("pattern", "(\d{3})(\d{4})"); ("nationalPrefixFormattingRule", "$NP$FG")]
  ++ tx "leadingDigits" "43[1-6]|70[1-9]"
  ++ tx "format" "$1 $2"
  ++ en "numberFormat"
  ++ st "numberFormat" [("pattern", "(\d)(\d{3})(\d{3,4})"); ("nationalPrefixFormattingRule", "$NP$FG")]
  ++ tx "leadingDigits" "2"
  ++ tx "format" "$1 $2 $3"
  ++ en "numberFormat"
  ++ st "numberFormat" [("pattern", "(\d{2})(\d{3})(\d{2,3})"); ("nationalPrefixFormattingRule", "$NP$FG")]
  ++ tx "leadingDigits" "[356]|4[124-7]|7[1-9]|8[1-6]|9[1-7]"
  ++ tx "format" "$1 $2 $3"
  ++ en "numberFormat"
  ++ st "numberFormat" [("pattern", "(\d{3})(\d{2})(\d{3})"); ("nationalPrefixFormattingRule", "$NP$FG")]
  ++ tx "leadingDigits" "(?:70|8)0"
  ++ tx "format" "$1 $2 $3"
  ++ en "numberFormat"
  ++ st "numberFormat" [("pattern", "(\d{3})(\d{3})(\d{2})"); ("nationalPrefixFormattingRule", "$NP$FG")]
  ++ tx "leadingDigits" "43[1-7]|7"
  ++ tx "format" "$1 $2 $3"
  ++ en "numberFormat"
  ++ st "numberFormat" [("pattern", "(\d{2})(\d{3})(\d{3,4})"); ("nationalPrefixFormattingRule", "$NP$FG")]
  ++ tx "leadingDigits" "[48]|9[08]"
  ++ tx "format" "$1 $2 $3"
  ++ en "numberFormat"
  ++ st "numberFormat" [("pattern", "(\d{3})(\d{3})(\d{3})"); ("nationalPrefixFormattingRule", "$NP$FG")]
  ++ tx "leadingDigits" "9"
  ++ tx "format" "$1 $2 $3"
  ++ en "numberFormat"
  ++ en "availableFormats"
  ++ st "generalDesc" []
  ++ tx "nationalNumberPattern" "00800\d{7}|[2-7]\d{6,7}|[89]\d{6,8}|2\d{5}"
  ++ en "generalDesc"
  ++ st "fixedLine" []
  ++ em "possibleLengths" [("national", "[6-8]"); ("localOnly", "4,5")]
  ++ tx "exampleNumber" "2123456"
  ++ tx "nationalNumberPattern" "2\d{5,7}|(?:43[1-6]|70[1-9])\d{4,5}|(?:[36]\d|4[124-7]|[57][1-9]|8[1-6]|9[1-7])\d{5,6}"
  ++ en "fixedLine"
  ++ st "mobile" []
  ++ em "possibleLengths" [("national", "8,9")]
  ++ tx "exampleNumber" "43012345"
  ++ tx "nationalNumberPattern" "(?:43[07-9]|99[69]\d)\d{5}|(?:8[7-9]|98)\d{7}"
  ++ en "mobile"
  ++ st "tollFree" []
  ++ em "possibleLengths" [("national", "8,12")]
  ++ tx "exampleNumber" "80012345"
  ++ tx "nationalNumberPattern" "(?:00800\d\d|800)\d{5}"
  ++ en "tollFree"
  ++ st "premiumRate" []
  ++ em "possibleLengths" [("national", "8")]
  ++ tx "exampleNumber" "90123456"
  ++ tx "nationalNumberPattern" "90\d{6}"
  ++ en "premiumRate"
  ++ st "sharedCost" []
  ++ em "possibleLengths" [("national", "8")]
  ++ tx "exampleNumber" "70012345"
  ++ tx "nationalNumberPattern" "700\d{5}"
  ++ en "sharedCost"
  ++ en "territory".

Definition ev_22 : list event :=
  st "territory" [("id", "BH"); ("countryCode", "973"); ("internationalPrefix", "00"); ("mobileNumberPortableRegion", "true")]
  ++ st "availableFormats" []
  ++ st "numberFormat" [("pattern", "(\d{4})(\d{4})")]
  ++ tx "leadingDigits" "[13679]|8[02-4679]"
  ++ tx "format" "$1 $2"
  ++ en "numberFormat"
  ++ en "availableFormats"
  ++ st "generalDesc" []
  ++ tx "nationalNumberPattern" "[136-9]\d{7}"
  ++ en "generalDesc"
  ++ st "fixedLine" []
  ++ em "possibleLengths" [("national", "8")]
  ++ tx "exampleNumber" "17001234"
  ++ tx "nationalNumberPattern" "(?:1(?:3[1356]|6[0156]|7\d)\d|6(?:1[16]\d|500|6(?:0\d|3[12]|44|55|7[7-9]|88)|9[69][69])|7(?:[07]\d\d|1(?:11|78)))\d{4}"
  ++ en "fixedLine"
  ++ st "mobile" []
  ++ em "possibleLengths" [("national", "8")]
  ++ tx "exampleNumber" "36001234"
  ++ tx "nationalNumberPattern" "(?:3(?:[0-79]\d|8[0-57-9])\d|6(?:3(?:00|33|6[16])|441|6(?:3[03-9]|[69]\d|7[0-689])))\d{4}"
  ++ en "mobile"
  ++ st "tollFree" []
  ++ em "possibleLengths" [("national", "8")]
  ++ tx "exampleNumber" "80123456"
  ++ tx "nationalNumberPattern" "8[02369]\d{6}"
  ++ en "tollFree"
  ++ st "premiumRate" []
  ++ em "possibleLengths" [("national", "8")]
  ++ tx "exampleNumber" "90123456"
  ++ tx "nationalNumberPattern" "(?:87|9[0-8])\d{6}"
  ++ en "premiumRate"
  ++ st "sharedCost" []
  ++ em "possibleLengths" [("national", "8")]
  ++ tx "exampleNumber" "84123456"
  ++ tx "nationalNumberPattern" "84\d{6}"
  ++ en "sharedCost"
  ++ en "territory".

Definition ev_23 : list event :=
  st "territory" [("id", "BI"); ("countryCode", "257"); ("internationalPrefix", "00")]
  ++ st "availableFormats" []
  ++ st "numberFormat" [("pattern", "(\d{2})(\d{2})(\d{2})(\d{2})")]
  ++ tx "leadingDigits" "[2367]"
  ++ tx "format" "$1 $2 $3 $4"
  ++ en "numberFormat"
  ++ en "availableFormats"
  ++ st "generalDesc" []
  ++ tx "nationalNumberPattern" "(?:[267]\d|31)\d{6}"
  ++ en "generalDesc"
  ++ st "fixedLine" []
  ++ em "possibleLengths" [("national", "8")]
  ++ tx "exampleNumber" "22201234"
  ++ tx "nationalNumberPattern" "(?:22|31)\d{6}"
  ++ en "fixedLine"
  ++ st "mobile" []
  ++ em "possibleLengths" [("national", "8")]
  ++ tx "exampleNumber" "79561234"
  ++ tx "nationalNumberPattern" "(?:29|6[1-9]|7[125-9])\d{6}"
  ++ en "mobile"
  ++ en "territory".

Definition ev_24 : list event :=
  st "territory" [("id", "BJ"); ("countryCode", "229"); ("internationalPrefix", "00"); ("mobileNumberPortableRegion", "true")]
  ++ st "availableFormats" []
  ++ st "numberFormat" [("pattern", "(\d{2})(\d{2})(\d{2})(\d{2})")]
  ++ tx "leadingDigits" "8"
  ++ tx "format" "$1 $2 $3 $4"
  ++ en "numberFormat"
  ++ st "numberFormat" [("pattern", "(\d{2})(\d{2})(\d{2})(\d{2})(\d{2})")]
  ++ tx "leadingDigits" "0"
  ++ tx "format" "$1 $2 $3 $4 $5"
  ++ en "numberFormat"
  ++ en "availableFormats"
  ++ st "generalDesc" []
  ++ tx "nationalNumberPattern" "(?:01\d|8)\d{7}"
  ++ en "generalDesc"
  ++ st "fixedLine" []
  ++ em "possibleLengths" [("national", "10")]
  ++ tx "exampleNumber" "0120211234"
  ++ tx "nationalNumberPattern" "012\d{7}"
  ++ en "fixedLine"
  ++ st "mobile" []
  ++ em "possibleLengths" [("national", "10")]
  ++ tx "exampleNumber" "0195123456"
  ++ tx "nationalNumberPattern" "01(?:2[5-9]|[4-69]\d)\d{6}"
  ++ en "mobile"
  ++ st "voip" []
  ++ em "possibleLengths" [("national", "8")]
  ++ tx "exampleNumber" "85751234"
  ++ tx "nationalNumberPattern" "857[58]\d{4}"
  ++ en "voip"
  ++ st "uan" []
  ++ em "possibleLengths" [("national", "8")]
  ++ tx "exampleNumber" "81123456"
  ++ tx "nationalNumberPattern" "81\d{6}"
  ++ en "uan"
  ++ en "territory".

Definition ev_25 : list event :=
  st "territory" [("id", "BL"); ("countryCode", "590"); ("internationalPrefix", "00"); ("nationalPrefix", "0"); ("mobileNumberPortableRegion", "true")]
  ++ st "generalDesc" []
  ++ tx "nationalNumberPattern" "7090\d{5}|(?:[56]9|[89]\d)\d{7}"
  ++ en "generalDesc"
  ++ st "fixedLine" []
  ++ em "possibleLengths" [("national", "9")]
  ++ tx "exampleNumber" "590271234"
  ++ tx "nationalNumberPattern" "(?:59(?:0(?:2[7-9]|3[3-7]|5[12]|87)|87\d)|80[6-9]\d\d)\d{4}"
  ++ en "fixedLine"
  ++ st "mobile" []
  ++ em "possibleLengths" [("national", "9")]
  ++ tx "exampleNumber" "690001234"
  ++ tx "nationalNumberPattern" "(?:69(?:0\d\d|1(?:2[2-9]|3[0-5]))|7090[0-4])\d{4}"
  ++ en "mobile"
  ++ st "tollFree" []
  ++ em "possibleLengths" [("national", "9")]
  ++ tx "exampleNumber" "800012345"
  ++ tx "nationalNumberPattern" "80[0-5]\d{6}"
  ++ en "tollFree"
  ++ st "premiumRate" []
  ++ em "possibleLengths" [("national", "9")]
  ++ tx "exampleNumber" "810123456"
  ++ tx "nationalNumberPattern" "8[129]\d{7}"
  ++ en "premiumRate"
  ++ st "voip" []
  ++ em "possibleLengths" [("national", "9")]
  ++ tx "exampleNumber" "976012345"
  ++ tx "nationalNumberPattern" "9(?:(?:39[5-7]|76[018])\d|475[0-6])\d{4}"
  ++ en "voip"
  ++ en "territory".

Definition ev_26 : list event :=
  st "territory" [("id", "BM"); ("countryCode", "1"); ("leadingDigits", "441"); ("internationalPrefix", "011"); ("nationalPrefix", "1"); ("nationalPrefixForParsing", "([2-9]\d{6})$|1"); ("nationalPrefixTransformRule", "441$1"); ("mobileNumberPortableRegion", "true")]
  ++ st "generalDesc" []
  ++ tx "nationalNumberPattern" "(?:441|[58]\d\d|900)\d{7}"
  ++ en "generalDesc"
  ++ st "fixedLine" []
  ++ em "possibleLengths" [("national", "10"); ("localOnly", "7")]
  ++ tx "exampleNumber" "4414123456"
  ++ tx "nationalNumberPattern" "441(?:[46]\d\d|5(?:4\d|60|89))\d{4}"
  ++ en "fixedLine"
  ++ st "mobile" []
  ++ em "possibleLengths" [("national", "10"); ("localOnly", "7")]
  ++ tx "exampleNumber" "4413701234"
  ++ tx "nationalNumberPattern" "441(?:[2378]\d|5[0-39]|9[02])\d{5}"
  ++ en "mobile"
  ++ st "tollFree" []
  ++ em "possibleLengths" [("national", "10")]
  ++ tx "exampleNumber" "8002123456"
  ++ tx "nationalNumberPattern" "8(?:00|33|44|55|66|77|88)[2-9]\d{6}"
  ++ en "tollFree"
  ++ st "premiumRate" []
  ++ em "possibleLengths" [("national", "10")]
  ++ tx "exampleNumber" "9002123456"
  ++ tx "nationalNumberPattern" "900[2-9]\d{6}"
  ++ en "premiumRate"
  ++ st "personalNumber" []
  ++ em "possibleLengths" [("national", "10")]
  ++ tx "exampleNumber" "5002345678"
  ++ tx "nationalNumberPattern" "52(?:3(?:[2-46-9][02-9]\d|5(?:[02-46-9]\d|5[0-46-9]))|4(?:[2-478][02-9]\d|5(?:[034]\d|2[024-9]|5[0-46-9])|6(?:0[1-9]|[2-9]\d)|9(?:[05-9]\d|2[0-5]|49)))\d{4}|52[34][2-9]1[02-9]\d{4}|5(?:00|2[125-9]|3[23]|44|66|77|88)[2-9]\d{6}"
  ++ en "personalNumber"
  ++ en "territory".

Definition ev_27 : list event :=
  st "territory" [("id", "BN"); ("countryCode", "673"); ("internationalPrefix", "00")]
  ++ st "availableFormats" []
  ++ st "numberFormat" [("pattern", "(\d{3})(\d{4})")]
  ++ tx "leadingDigits" "[2-578]"
  ++ tx "format" "$1 $2"
  ++ en "numberFormat"
  ++ en "availableFormats"
  ++ st "generalDesc" []
  ++ tx "nationalNumberPattern" "[2-578]\d{6}"
  ++ en "generalDesc"
  ++ st "fixedLine" []
  ++ em "possibleLengths" [("national", "7")]
  ++ tx "exampleNumber" "2345678"
  ++ tx "nationalNumberPattern" "22[0-7]\d{4}|(?:2[013-9]|[34]\d|5[0-25-9])\d{5}"
  ++ en "fixedLine"
  ++ st "mobile" []
  ++ em "possibleLengths" [("national", "7")]
  ++ tx "exampleNumber" "7123456"
  ++ tx "nationalNumberPattern" "(?:22[89]|[78]\d\d)\d{4}"
  ++ en "mobile"
  ++ st "voip" []
  ++ em "possibleLengths" [("national", "7")]
  ++ tx "exampleNumber" "5345678"
  ++ tx "nationalNumberPattern" "5[34]\d{5}"
  ++ en "voip"
  ++ en "territory".

Definition ev_28 : list event :=
  st "territory" [("id", "BO"); ("countryCode", "591"); ("internationalPrefix", "00(?:1\d)?"); ("nationalPrefix", "0"); ("nationalPrefixForParsing", "0(1\d)?")]
  ++ st "availableFormats" []
  ++ st "numberFormat" [("pattern", "(\d)(\d{7})"); ("carrierCodeFormattingRule", "$NP$CC $FG")]
  ++ tx "leadingDigits" "[23]|4[46]|50"
  ++ tx "format" "$1 $2"
  ++ en "numberFormat"
  ++ st "numberFormat" [("pattern", "(\d{8})"); ("carrierCodeFormattingRule", "$NP$CC $FG")]
  ++ tx "leadingDigits" "[5-7]"
  ++ tx "format" "$1"
  ++ en "numberFormat"
  ++ st "numberFormat" [("pattern", "(\d{3})(\d{2})(\d{4})"); ("carrierCodeFormattingRule", "$NP$CC $FG")]
  ++ tx "leadingDigits" "8"
  ++ tx "format" "$1 $2 $3"
  ++ en "numberFormat"
  ++ en "availableFormats"
  ++ st "generalDesc" []
  ++ tx "nationalNumberPattern" "(?:[2-7]\d\d|8001)\d{5}"
  ++ en "generalDesc"
  ++ st "noInternationalDialling" []
  ++ em "possibleLengths" [("national", "9")]
  ++ tx "nationalNumberPattern" "8001[07]\d{4}"
  ++ en "noInternationalDialling"
  ++ st "fixedLine" []
  ++ em "possibleLengths" [("national", "8"); ("localOnly", "7")]
  ++ tx "exampleNumber" "22123456"
  ++ tx "nationalNumberPattern" "(?:2(?:2\d\d|5(?:11|[258]\d|9[67])|6(?:12|2\d|9[34])|8(?:2[34]|39|62))|3(?:3\d\d|4(?:6\d|8[24])|8(?:25|42|5[257]|86|9[25])|9(?:[27]\d|3[2-4]|4[248]|5[24]|6[2-6]))|4(?:4\d\d|6(?:11|[24689]\d|72)))\d{4}"
  ++ en "fixedLine"
  ++ st "mobile" []
  ++ em "possibleLengths" [("national", "8")]
  ++ tx "exampleNumber" "71234567"
  ++ tx "nationalNumberPattern" "(?:57|[67]\d)\d{6}"
  ++ en "mobile"
  ++ st "tollFree" []
  ++ em "possibleLengths" [("national", "9")]
  ++ tx "exampleNumber" "800171234"
  ++ tx "nationalNumberPattern" "8001[07]\d{4}"
  ++ en "tollFree"
  ++ st "voip" []
  ++ em "possibleLengths" [("national", "8"); ("localOnly", "7")]
  ++ tx "exampleNumber" "50123456"
  ++ tx "nationalNumberPattern" "50\d{6}"
  ++ en "voip"
  ++ en "territory".

Definition ev_29 : list event :=
  st "territory" [("id", "BQ"); ("countryCode", "599"); ("leadingDigits", "[347]"); ("internationalPrefix", "00")]
  ++ st "generalDesc" []
  ++ tx "nationalNumberPattern" "(?:[34]1|7\d)\d{5}"
  ++ en "generalDesc"
  ++ st "fixedLine" []
  ++ em "possibleLengths" [("national", "7")]
  ++ tx "exampleNumber" "7151234"
  ++ tx "nationalNumberPattern" "(?:318[023]|41(?:6[023]|70)|7(?:1[578]|2[05]|50)\d)\d{3}"
  ++ en "fixedLine"
  ++ st "mobile" []
  ++ em "possibleLengths" [("national", "7")]
  ++ tx "exampleNumber" "3181234"
  ++ tx "nationalNumberPattern" "(?:31(?:8[14-8]|9[14578])|416[14-9]|7(?:0[01]|7[07]|8\d|9[056])\d)\d{3}"
  ++ en "mobile"
  ++ en "territory".

Definition ev_30 : list event :=
  st "territory" [("id", "BR"); ("countryCode", "55"); ("internationalPrefix", "00(?:1[245]|2[1-35]|31|4[13]|[56]5|99)"); ("nationalPrefix", "0"); ("nationalPrefixForParsing", "(?:0|90)(?:(1[245]|2[1-35]|31|4[13]|[56]5|99)(\d{10,11}))?"); ("nationalPrefixTransformRule", "$2"); ("mobileNumberPortableRegion", "true")]
  ++ st "availableFormats" []
  ++ st "numberFormat" [("pattern", "(\d{3,6})")]
  ++ tx "leadingDigits" "1(?:1[25-8]|2[357-9]|3[02-68]|4[12568]|5|6[0-8]|8[015]|9[0-47-9])|321|610"
  ++ tx "format" "$1"
  ++ tx "intlFormat" "NA"
  ++ en "numberFormat"
  ++ st "numberFormat" [("pattern", "(\d{4})(\d{4})")]
  ++ tx "leadingDigits" "300|4(?:0[02]|37|86)"
  ++ tx "leadingDigits" "300|4(?:0(?:0|20)|370|864)"
  ++ tx "format" "$1-$2"
  ++ en "numberFormat"
  ++ st "numberFormat" [("pattern", "(\d{4})(\d{4})")]
  ++ tx "leadingDigits" "[2-57]"
  ++ tx "leadingDigits" "[2357]|4(?:[0-24-9]|3(?:[0-689]|7[1-9]))"
  ++ tx "format" "$1-$2"
  ++ tx "intlFormat" "NA"
  ++ en "numberFormat"
  ++ st "numberFormat" [("pattern", "(\d{3})(\d{2,3})(\d{4})"); ("nationalPrefixFormattingRule", "$NP$FG")]
  ++ tx "leadingDigits" "(?:[358]|90)0"
  ++ tx "format" "$1 $2 $3"
  ++ en "numberFormat"
  ++ st "numberFormat" [("pattern", "(\d{5})(\d{4})")]
  ++ tx "leadingDigits" "9"
  ++ tx "format" "$1-$2"
  ++ tx "intlFormat" "NA"
  ++ en "numberFormat"
  ++ st "numberFormat" [("pattern", "(\d{2})(\d{4})(\d{4})"); ("nationalPrefixFormattingRule", "($FG)"); ("carrierCodeFormattingRule", "$NP $CC ($FG)")]
  ++ tx "leadingDigits" "(?:[14689][1-9]|2[12478]|3[1-578]|5[13-5]|7[13-579])[2-57]"
  ++ tx "format" "$1 $2-$3"
  ++ en "numberFormat"
  ++ st "numberFormat" [("pattern", "(\d{2})(\d{5})(\d{4})"); ("nationalPrefixFormattingRule", "($FG)"); ("carrierCodeFormattingRule", "$NP $CC ($FG)")]
  ++ tx "leadingDigits" "[16][1-9]|[2-57-9]"
  ++ tx "format" "$1 $2-$3"
  ++ en "numberFormat"
  ++ en "availableFormats"
  ++ st "generalDesc" []
  ++ tx "nationalNumberPattern" "[1-467]\d{9,10}|55[0-46-9]\d{8}|[34]\d{7}|55\d{7,8}|(?:5[0-46-9]|[89]\d)\d{7,9}"
  ++ en "generalDesc"
  ++ st "noInternationalDialling" []
  ++ em "possibleLengths" [("national", "[8-10]")]
  ++ tx "nationalNumberPattern" "(?:30[03]\d{3}|4(?:0(?:0\d|20)|864))\d{4}|800\d{6,7}|300\d{5}"
  ++ en "noInternationalDialling"
  ++ st "fixedLine" []
  ++ em "possibleLengths" [("national", "10"); ("localOnly", "8")]
  ++ tx "exampleNumber" "1123456789"
  ++ tx "nationalNumberPattern" "(?:[14689][1-9]|2[12478]|3[1-578]|5[13-5]|7[13-579])[2-5]\d{7}"
  ++ en "fixedLine"
  ++ st "mobile" []
  ++ em "possibleLengths" [("national", "10,11"); ("localOnly", "8,9")]
  ++ tx "exampleNumber" "11961234567"
  ++ tx "nationalNumberPattern" "(?:[14689][1-9]|2[12478]|3[1-578]|5[13-5]|7[13-579])(?:7|9\d)\d{7}"
  ++ en "mobile"
  ++ st "tollFree" []
  ++ em "possibleLengths" [("national", "9,10")]
  ++ tx "exampleNumber" "800123456"
  ++ tx "nationalNumberPattern" "800\d{6,7}"
  ++ en "tollFree"
  ++ st "premiumRate" []
  ++ em "possibleLengths" [("national", "9,10")]
  ++ tx "exampleNumber" "500123456"
  ++ tx "nationalNumberPattern" "[59]00\d{6,7}"
  ++ en "premiumRate"
  ++ st "sharedCost" []
  ++ em "possibleLengths" [("national", "8,10")]
  ++ tx "exampleNumber" "40041234"
  ++ tx "nationalNumberPattern" "(?:30[03]\d{3}|4(?:0(?:0\d|20)|370|864))\d{4}|300\d{5}"
  ++ en "sharedCost"
  ++ en "territory".

Definition ev_31 : list event :=
  st "territory" [("id", "BS"); ("countryCode", "1"); ("leadingDigits", "242"); ("internationalPrefix", "011"); ("nationalPrefix", "1"); ("nationalPrefixForParsing", "([3-8]\d{6})$|1"); ("nationalPrefixTransformRule", "242$1"); ("mobileNumberPortableRegion", "true")]
  ++ st "generalDesc" []
  ++ tx "nationalNumberPattern" "(?:242|[58]\d\d|900)\d{7}"
  ++ en "generalDesc"
  ++ st "fixedLine" []
  ++ em "possibleLengths" [("national", "10"); ("localOnly", "7")]
  ++ tx "exampleNumber" "2423456789"
  ++ tx "nationalNumberPattern" "242(?:3(?:02|[236][1-9]|4[0-24-9]|5[0-68]|7[347]|8[0-4]|9[2-467])|461|502|6(?:0[1-5]|12|2[013]|[45]0|7[67]|8[78]|9[89])|7(?:02|88))\d{4}"
  ++ en "fixedLine"
  ++ st "mobile" []
  ++ em "possibleLengths" [("national", "10"); ("localOnly", "7")]
  ++ tx "exampleNumber" "2423591234"
  ++ tx "nationalNumberPattern" "242(?:3(?:5[79]|7[56]|95)|4(?:[23][1-9]|4[1-35-9]|5[1-8]|6[2-8]|7\d|81)|5(?:2[45]|3[35]|44|5[1-46-9]|65|77)|6[34]6|7(?:27|38)|8(?:0[1-9]|1[02-9]|2\d|3[0-4]|[89]9))\d{4}"
  ++ en "mobile"
  ++ st "tollFree" []
  ++ em "possibleLengths" [("national", "10"); ("localOnly", "7")]
  ++ tx "exampleNumber" "8002123456"
  ++ tx "nationalNumberPattern" "242300\d{4}|8(?:00|33|44|55|66|77|88)[2-9]\d{6}"
  ++ en "tollFree"
  ++ st "premiumRate" []
  ++ em "possibleLengths" [("national", "10")]
  ++ tx "exampleNumber" "9002123456"
  ++ tx "nationalNumberPattern" "900[2-9]\d{6}"
  ++ en "premiumRate"
  ++ st "personalNumber" []
  ++ em "possibleLengths" [("national", "10")]
  ++ tx "exampleNumber" "5002345678"
  ++ tx "nationalNumberPattern" "52(?:3(?:[2-46-9][02-9]\d|5(?:[02-46-9]\d|5[0-46-9]))|4(?:[2-478][02-9]\d|5(?:[034]\d|2[024-9]|5[0-46-9])|6(?:0[1-9]|[2-9]\d)|9(?:[05-9]\d|2[0-5]|49)))\d{4}|52[34][2-9]1[02-9]\d{4}|5(?:00|2[125-9]|3[23]|44|66|77|88)[2-9]\d{6}"
  ++ en "personalNumber"
  ++ st "uan" []
  ++ em "possibleLengths" [("national", "10")]
  ++ tx "exampleNumber" "2422250123"
  ++ tx "nationalNumberPattern" "242225\d{4}"
  ++ en "uan"
  ++ en "territory".

Definition ev_32 : list event :=
  st "territory" [("id", "BT"); ("countryCode", "975"); ("internationalPrefix", "00")]
  ++ st "availableFormats" []
  ++ st "numberFormat" [("pattern", "(\d{3})(\d{3})")]
  ++ tx "leadingDigits" "[2-7]"
  ++ tx "format" "$1 $2"
  ++ tx "intlFormat" "NA"
  ++ en "numberFormat"
  ++ st "numberFormat" [("pattern", "(\d)(\d{3})(\d{3})")]
  ++ tx "leadingDigits" "[2-6]|7[246]|8[2-4]"
  ++ tx "format" "$1 $2 $3"
  ++ en "numberFormat"
  ++ st "numberFormat" [("pattern", "(\d{2})(\d{2})(\d{2})(\d{2})")]
  ++ tx "leadingDigits" "1[67]|[78]"
  ++ tx "format" "$1 $2 $3 $4"
  ++ en "numberFormat"
  ++ en "availableFormats"
  ++ st "generalDesc" []
  ++ tx "nationalNumberPattern" "[178]\d{7}|[2-8]\d{6}"
  ++ en "generalDesc"
  ++ st "fixedLine" []
  ++ em "possibleLengths" [("national", "7"); ("localOnly", "6")]
  ++ tx "exampleNumber" "2345678"
  ++ tx "nationalNumberPattern" "(?:2[3-6]|[34][5-7]|5[236]|6[2-46]|7[246]|8[2-4])\d{5}"
  ++ en "fixedLine"
  ++ st "mobile" []
  ++ em "possibleLengths" [("national", "8")]
  ++ tx "exampleNumber" "17123456"
  ++ tx "nationalNumberPattern" "(?:1[67]|[78]7)\d{6}"
  ++ en "mobile"
  ++ en "territory".

Definition ev_33 : list event :=
  st "territory" [("id", "BW"); ("countryCode", "267"); ("internationalPrefix", "00")]
  ++ st "availableFormats" []
  ++ st "numberFormat" [("pattern", "(\d{2})(\d{5})")]
  ++ tx "leadingDigits" "90"
  ++ tx "format" "$1 $2"
  ++ en "numberFormat"
  ++ st "numberFormat" [("pattern", "(\d{3})(\d{4})")]
  ++ tx "leadingDigits" "[24-6]|3[15-9]"
  ++ tx "format" "$1 $2"
  ++ en "numberFormat"
  ++ st "numberFormat" [("pattern", "(\d{2})(\d{3})(\d{3})")]
  ++ tx "leadingDigits" "[37]"
  ++ tx "format" "$1 $2 $3"
  ++ en "numberFormat"
  ++ st "numberFormat" [("pattern", "(\d{4})(\d{3})(\d{3})")]
  ++ tx "leadingDigits" "0"
  ++ tx "format" "$1 $2 $3"
  ++ en "numberFormat"
  ++ st "numberFormat" [("pattern", "(\d{3})(\d{4})(\d{3})")]
  ++ tx "leadingDigits" "8"
  ++ tx "format" "$1 $2 $3"
  ++ en "numberFormat"
  ++ en "availableFormats"
  ++ st "generalDesc" []
  ++ tx "nationalNumberPattern" "(?:0800|(?:[37]|800)\d)\d{6}|(?:[2-6]\d|90)\d{5}"
  ++ en "generalDesc"
  ++ st "fixedLine" []
  ++ em "possibleLengths" [("national", "7")]
  ++ tx "exampleNumber" "2401234"
  ++ tx "nationalNumberPattern" "(?:2(?:4[0-48]|6[0-24]|9[0578])|3(?:1[0-35-9]|55|[69]\d|7[013]|81)|4(?:6[03]|7[1267]|9[0-5])|5(?:3[03489]|4[0489]|7[1-47]|88|9[0-49])|6(?:2[1-35]|5[149]|8[013467]))\d{4}"
  ++ en "fixedLine"
  ++ st "mobile" []
  ++ em "possibleLengths" [("national", "8")]
  ++ tx "exampleNumber" "71123456"
  ++ tx "nationalNumberPattern" "(?:321|7(?:[1-8]\d|9[03]))\d{5}"
  ++ en "mobile"
  ++ st "tollFree" []
  ++ em "possibleLengths" [("national", "10")]
  ++ tx "exampleNumber" "0800012345"
  ++ tx "nationalNumberPattern" "(?:0800|800\d)\d{6}"
  ++ en "tollFree"
  ++ st "premiumRate" []
  ++ em "possibleLengths" [("national", "7")]
  ++ tx "exampleNumber" "9012345"
  ++ tx "nationalNumberPattern" "90\d{5}"
  ++ en "premiumRate"
  ++ st "voip" []
  ++ em "possibleLengths" [("national", "8")]
  ++ tx "exampleNumber" "79101234"
  ++ tx "nationalNumberPattern" "79(?:1(?:[0-2]\d|3[0-8])|2[0-7]\d)\d{3}"
  ++ en "voip"
  ++ en "territory".

Definition ev_34 : list event :=
  st "territory" [("id", "BY"); ("countryCode", "375"); ("preferredInternationalPrefix", "8~10"); ("internationalPrefix", "810"); ("nationalPrefix", "8"); ("nationalPrefixForParsing", "0|80?"); ("mobileNumberPortableRegion", "true")]
  ++ st "availableFormats" []
  ++ st "numberFormat" [("pattern", "(\d{3})(\d{3})"); ("nationalPrefixFormattingRule", "$NP $FG")]
  ++ tx "leadingDigits" "800"
  ++ tx "format" "$1 $2"
  ++ en "numberFormat"
  ++ st "numberFormat" [("pattern", "(\d{3})(\d{2})(\d{2,4})"); ("nationalPrefixFormattingRule", "$NP $FG")]
  ++ tx "leadingDigits" "800"
  ++ tx "format" "$1 $2 $3"
  ++ en "numberFormat"
  ++ st "numberFormat" [("pattern", "(\d{4})(\d{2})(\d{3})"); ("nationalPrefixFormattingRule", "$NP 0$FG")]
  ++ tx "leadingDigits" "1(?:5[169]|6[3-5]|7[179])|2(?:1[35]|2[34]|3[3-5])"
  ++ tx "leadingDigits" "1(?:5[169]|6(?:3[1-3]|4|5[125])|7(?:1[3-9]|7[0-24-6]|9[2-7]))|2(?:1[35]|2[34]|3[3-5])"
  ++ tx "format" "$1 $2-$3"
  ++ en "numberFormat"
  ++ st "numberFormat" [("pattern", "(\d{3})(\d{2})(\d{2})(\d{2})"); ("nationalPrefixFormattingRule", "$NP 0$FG")]
  ++ tx "leadingDigits" "1(?:[56]|7[467])|2[1-3]"
  ++ tx "format" "$1 $2-$3-$4"
  ++ en "numberFormat"
  ++ st "numberFormat" [("pattern", "(\d{2})(\d{3})(\d{2})(\d{2})"); ("nationalPrefixFormattingRule", "$NP 0$FG")]
  ++ tx "leadingDigits" "[1-4]"
  ++ tx "format" "$1 $2-$3-$4"
  ++ en "numberFormat"
  ++ st "numberFormat" [("pattern", "(\d{3})(\d{3,4})(\d{4})"); ("nationalPrefixFormattingRule", "$NP $FG")]
  ++ tx "leadingDigits" "[89]"
  ++ tx "format" "$1 $2 $3"
  ++ en "numberFormat"
  ++ en "availableFormats"
  ++ st "generalDesc" []
  ++ tx "nationalNumberPattern" "(?:[12]\d|33|44|902)\d{7}|8(?:0[0-79]\d{5,7}|[1-7]\d{9})|8(?:1[0-489]|[5-79]\d)\d{7}|8[1-79]\d{6,7}|8[0-79]\d{5}|8\d{5}"
  ++ en "generalDesc"
  ++ st "noInternationalDialling" []
  ++ em "possibleLengths" [("national", "[6-11]")]
  ++ tx "nationalNumberPattern" "800\d{3,7}|(?:8(?:0[13]|10|20\d)|902)\d{7}"
  ++ en "noInternationalDialling"
  ++ st "fixedLine" []
  ++ em "possibleLengths" [("national", "9"); ("localOnly", "[5-7]")]
  ++ tx "exampleNumber" "152450911"
  ++ tx "nationalNumberPattern" "(?:1(?:5(?:1[1-5]|[24]\d|6[2-4]|9[1-7])|6(?:[235]\d|4[1-7])|7\d\d)|2(?:1(?:[246]\d|3[0-35-9]|5[1-9])|2(?:[235]\d|4[0-8])|3(?:[26]\d|3[02-79]|4[024-7]|5[03-7])))\d{5}"
  ++ en "fixedLine"
  ++ st "mobile" []
  ++ em "possibleLengths" [("national", "9")]
  ++ tx "exampleNumber" "294911911"
  ++ tx "nationalNumberPattern" "(?:2(?:5[5-79]|9[1-9])|(?:33|44)\d)\d{6}"
  ++ en "mobile"
  ++ st "tollFree" []
  ++ em "possibleLengths" [("national", "[6-11]")]
  ++ tx "exampleNumber" "8011234567"
  ++ tx "nationalNumberPattern" "800\d{3,7}|8(?:0[13]|20\d)\d{7}"
  ++ en "tollFree"
  ++ st "premiumRate" []
  ++ em "possibleLengths" [("national", "10")]
  ++ tx "exampleNumber" "9021234567"
  ++ tx "nationalNumberPattern" "(?:810|902)\d{7}"
  ++ en "premiumRate"
  ++ st "voip" []
  ++ em "possibleLengths" [("national", "9")]
  ++ tx "exampleNumber" "249123456"
  ++ tx "nationalNumberPattern" "249\d{6}"
  ++ en "voip"
  ++ en "territory".

Definition ev_35 : list event :=
  st "territory" [("id", "BZ"); ("countryCode", "501"); ("internationalPrefix", "00")]
  ++ st "availableFormats" []
  ++ st "numberFormat" [("pattern", "(\d{3})(\d{4})")]
  ++ tx "leadingDigits" "[2-8]"
  ++ tx "format" "$1-$2"
  ++ en "numberFormat"
  ++ st "numberFormat" [("pattern", "(\d)(\d{3})(\d{4})(\d{3})")]
  ++ tx "leadingDigits" "0"
  ++ tx "format" "$1-$2-$3-$4"
  ++ en "numberFormat"
  ++ en "availableFormats"
  ++ st "generalDesc" []
  ++ tx "nationalNumberPattern" "(?:0800\d|[2-8])\d{6}"
  ++ en "generalDesc"
  ++ st "fixedLine" []
  ++ em "possibleLengths" [("national", "7")]
  ++ tx "exampleNumber" "2221234"
  ++ tx "nationalNumberPattern" "(?:2(?:[02]\d|36|[68]0)|[3-58](?:[02]\d|[68]0)|7(?:[02]\d|32|[68]0))\d{4}"
  ++ en "fixedLine"
  ++ st "mobile" []
  ++ em "possibleLengths" [("national", "7")]
  ++ tx "exampleNumber" "6221234"
  ++ tx "nationalNumberPattern" "6[0-35-7]\d{5}"
  ++ en "mobile"
  ++ st "tollFree" []
  ++ em "possibleLengths" [("national", "11")]
  ++ tx "exampleNumber" "08001234123"
  ++ tx "nationalNumberPattern" "0800\d{7}"
  ++ en "tollFree"
  ++ en "territory".

Definition ev_36 : list event :=
  st "territory" [("id", "CA"); ("countryCode", "1"); ("internationalPrefix", "011"); ("nationalPrefix", "1"); ("mobileNumberPortableRegion", "true")]
  ++ st "generalDesc" []
  ++ tx "nationalNumberPattern" "[2-9]\d{9}|3\d{6}"
  ++ en "generalDesc"
  ++ st "fixedLine" []
  ++ em "possibleLengths" [("national", "10"); ("localOnly", "7")]
  ++ tx "exampleNumber" "5062345678"
  ++ tx "nationalNumberPattern" "(?:2(?:04|[23]6|[48]9|5[07]|63)|3(?:06|43|54|6[578]|82)|4(?:03|1[68]|[26]8|3[178]|50|74)|5(?:06|1[49]|48|79|8[147])|6(?:04|[18]3|39|47|72)|7(?:0[59]|42|53|78|8[02])|8(?:[06]7|19|25|7[39])|9(?:0[25]|42))[2-9]\d{6}"
  ++ en "fixedLine"
  ++ st "mobile" []
  ++ em "possibleLengths" [("national", "10"); ("localOnly", "7")]
  ++ tx "exampleNumber" "5062345678"
  ++ tx "nationalNumberPattern" "(?:2(?:04|[23]6|[48]9|5[07]|63)|3(?:06|43|54|6[578]|82)|4(?:03|1[68]|[26]8|3[178]|50|74)|5(?:06|1[49]|48|79|8[147])|6(?:04|[18]3|39|47|72)|7(?:0[59]|42|53|78|8[02])|8(?:[06]7|19|25|7[39])|9(?:0[25]|42))[2-9]\d{6}"
  ++ en "mobile"
  ++ st "tollFree" []
  ++ em "possibleLengths" [("national", "10")]
  ++ tx "exampleNumber" "8002123456"
  ++ tx "nationalNumberPattern" "8(?:00|33|44|55|66|77|88)[2-9]\d{6}"
  ++ en "tollFree"
  ++ st "premiumRate" []
  ++ em "possibleLengths" [("national", "10")]
  ++ tx "exampleNumber" "9002123456"
  ++ tx "nationalNumberPattern" "900[2-9]\d{6}"
  ++ en "premiumRate"
  ++ st "personalNumber" []
  ++ em "possibleLengths" [("national", "10")]
  ++ tx "exampleNumber" "5219023456"
  ++ tx "nationalNumberPattern" "52(?:3(?:[2-46-9][02-9]\d|5(?:[02-46-9]\d|5[0-46-9]))|4(?:[2-478][02-9]\d|5(?:[034]\d|2[024-9]|5[0-46-9])|6(?:0[1-9]|[2-9]\d)|9(?:[05-9]\d|2[0-5]|49)))\d{4}|52[34][2-9]1[02-9]\d{4}|(?:5(?:2[125-9]|3[23]|44|66|77|88)|6(?:22|33))[2-9]\d{6}"
  ++ en "personalNumber"
  ++ st "voip" []
  ++ em "possibleLengths" [("national", "10")]
  ++ tx "exampleNumber" "6002012345"
  ++ tx "nationalNumberPattern" "600[2-9]\d{6}"
  ++ en "voip"
  ++ st "uan" []
  ++ em "possibleLengths" [("national", "7")]
  ++ tx "exampleNumber" "3101234"
  ++ tx "nationalNumberPattern" "310\d{4}"
  ++ en "uan"
  ++ en "territory".

Definition ev_37 : list event :=
  st "territory" [("id", "CC"); ("countryCode", "61"); ("preferredInternationalPrefix", "0011"); ("internationalPrefix", "001[14-689]|14(?:1[14]|34|4[17]|[56]6|7[47]|88)0011"); ("nationalPrefix", "0"); ("nationalPrefixForParsing", "([59]\d{7})$|0"); ("nationalPrefixTransformRule", "8$1")]
  ++ st "generalDesc" []
  ++ tx "nationalNumberPattern" "1(?:[0-79]\d{8}(?:\d{2})?|8[0-24-9]\d{7})|[148]\d{8}|1\d{5,7}"
  ++ en "generalDesc"
  ++ st "fixedLine" []
  ++ em "possibleLengths" [("national", "9"); ("localOnly", "8")]
  ++ tx "exampleNumber" "891621234"
  ++ tx "nationalNumberPattern" "8(?:51(?:0(?:02|31|60|89)|1(?:18|76)|223)|91(?:0(?:1[0-2]|29)|1(?:[28]2|50|79)|2(?:10|64)|3(?:[06]8|22)|4[29]8|62\d|70[23]|959))\d{3}"
  ++ en "fixedLine"
  ++ st "mobile" []
  ++ em "possibleLengths" [("national", "9")]
  ++ tx "exampleNumber" "412345678"
  ++ tx "nationalNumberPattern" "4(?:79[01]|83[0-36-9]|95[0-3])\d{5}|4(?:[0-36]\d|4[047-9]|[58][0-24-9]|7[02-8]|9[0-47-9])\d{6}"
  ++ en "mobile"
  ++ st "tollFree" []
  ++ em "possibleLengths" [("national", "7,10")]
  ++ tx "exampleNumber" "1800123456"
  ++ tx "nationalNumberPattern" "180(?:0\d{3}|2)\d{3}"
  ++ en "tollFree"
  ++ st "premiumRate" []
  ++ em "possibleLengths" [("national", "10")]
  ++ tx "exampleNumber" "1900123456"
  ++ tx "nationalNumberPattern" "190[0-26]\d{6}"
  ++ en "premiumRate"
  ++ st "sharedCost" []
  ++ em "possibleLengths" [("national", "6,8,10,12")]
  ++ tx "exampleNumber" "1300123456"
  ++ tx "nationalNumberPattern" "13(?:00\d{6}(?:\d{2})?|45[0-4]\d{3})|13\d{4}"
  ++ en "sharedCost"
  ++ st "voip" []
  ++ em "possibleLengths" [("national", "9")]
  ++ tx "exampleNumber" "147101234"
  ++ tx "nationalNumberPattern" "14(?:5(?:1[0458]|[23][458])|71\d)\d{4}"
  ++ en "voip"
  ++ en "territory".

Definition ev_38 : list event :=
  st "territory" [("id", "CD"); ("countryCode", "243"); ("internationalPrefix", "00"); ("nationalPrefix", "0")]
  ++ st "availableFormats" []
  ++ st "numberFormat" [("pattern", "(\d{2})(\d{2})(\d{3})"); ("nationalPrefixFormattingRule", "$NP$FG")]
  ++ tx "leadingDigits" "88"
  ++ tx "format" "$1 $2 $3"
  ++ en "numberFormat"
  ++ st "numberFormat" [("pattern", "(\d{2})(\d{5})"); ("nationalPrefixFormattingRule", "$NP$FG")]
  ++ tx "leadingDigits" "[1-6]"
  ++ tx "format" "$1 $2"
  ++ en "numberFormat"
  ++ st "numberFormat" [("pattern", "(\d{2})(\d{2})(\d{4})"); ("nationalPrefixFormattingRule", "$NP$FG")]
  ++ tx "leadingDigits" "2"
  ++ tx "format" "$1 $2 $3"
  ++ en "numberFormat"
  ++ st "numberFormat" [("pattern", "(\d{2})(\d{3})(\d{4})"); ("nationalPrefixFormattingRule", "$NP$FG")]
  ++ tx "leadingDigits" "1"
  ++ tx "format" "$1 $2 $3"
  ++ en "numberFormat"
  ++ st "numberFormat" [("pattern", "(\d{3})(\d{3})(\d{3})"); ("nationalPrefixFormattingRule", "$NP$FG")]
  ++ tx "leadingDigits" "[89]"
  ++ tx "format" "$1 $2 $3"
  ++ en "numberFormat"
  ++ st "numberFormat" [("pattern", "(\d{2})(\d{2})(\d{3})(\d{3})"); ("nationalPrefixFormattingRule", "$NP$FG")]
  ++ tx "leadingDigits" "5"
  ++ tx "format" "$1 $2 $3 $4"
  ++ en "numberFormat"
  ++ en "availableFormats"
  ++ st "generalDesc" []
  ++ tx "nationalNumberPattern" "(?:(?:[189]|5\d)\d|2)\d{7}|[1-68]\d{6}"
  ++ en "generalDesc"
  ++ st "fixedLine" []
  ++ em "possibleLengths" [("national", "[7-10]")]
  ++ tx "exampleNumber" "1234567"
  ++ tx "nationalNumberPattern" "(?:(?:12|573)\d\d|276)\d{5}|[1-6]\d{6}"
  ++ en "fixedLine"
  ++ st "mobile" []
  ++ em "possibleLengths" [("national", "7,9")]
  ++ tx "exampleNumber" "991234567"
  ++ tx "nationalNumberPattern" "88\d{5}|(?:8[0-69]|9[016-9])\d{7}"
  ++ en "mobile"
  ++ en "territory".

Definition ev_39 : list event :=
  st "territory" [("id", "CF"); ("countryCode", "236"); ("internationalPrefix", "00")]
  ++ st "availableFormats" []
  ++ st "numberFormat" [("pattern", "(\d{2})(\d{2})(\d{2})(\d{2})")]
  ++ tx "leadingDigits" "[26-8]"
  ++ tx "format" "$1 $2 $3 $4"
  ++ en "numberFormat"
  ++ en "availableFormats"
  ++ st "generalDesc" []
  ++ tx "nationalNumberPattern" "8776\d{4}|(?:[27]\d|61)\d{6}"
  ++ en "generalDesc"
  ++ st "fixedLine" []
  ++ em "possibleLengths" [("national", "8")]
  ++ tx "exampleNumber" "21612345"
  ++ tx "nationalNumberPattern" "(?:2[12]|61)\d{6}"
  ++ en "fixedLine"
  ++ st "mobile" []
  ++ em "possibleLengths" [("national", "8")]
  ++ tx "exampleNumber" "70012345"
  ++ tx "nationalNumberPattern" "7[02-7]\d{6}"
  ++ en "mobile"
  ++ st "premiumRate" []
  ++ em "possibleLengths" [("national", "8")]
  ++ tx "exampleNumber" "87761234"
  ++ tx "nationalNumberPattern" "8776\d{4}"
  ++ en "premiumRate"
  ++ en "territory".

Definition ev_40 : list event :=
  st "territory" [("id", "CG"); ("countryCode", "242"); ("internationalPrefix", "00")]
  ++ st "availableFormats" []
  ++ st "numberFormat" [("pattern", "(\d)(\d{4})(\d{4})")]
  ++ tx "leadingDigits" "8"
  ++ tx "format" "$1 $2 $3"
  ++ en "numberFormat"
  ++ st "numberFormat" [("pattern", "(\d{2})(\d{3})(\d{4})")]
  ++ tx "leadingDigits" "[02]"
  ++ tx "format" "$1 $2 $3"
  ++ en "numberFormat"
  ++ en "availableFormats"
  ++ st "generalDesc" []
  ++ tx "nationalNumberPattern" "222\d{6}|(?:0\d|80)\d{7}"
  ++ en "generalDesc"
  ++ st "fixedLine" []
  ++ em "possibleLengths" [("national", "9")]
  ++ tx "exampleNumber" "222123456"
  ++ tx "nationalNumberPattern" "222[1-589]\d{5}"
  ++ en "fixedLine"
  ++ st "mobile" []
  ++ em "possibleLengths" [("national", "9")]
  ++ tx "exampleNumber" "061234567"
  ++ tx "nationalNumberPattern" "026(?:1[0-5]|6[6-9])\d{4}|0(?:[14-6]\d\d|2(?:40|5[5-8]|6[07-9]))\d{5}"
  ++ en "mobile"
  ++ st "premiumRate" []
  ++ em "possibleLengths" [("national", "9")]
  ++ tx "exampleNumber" "800123456"
  ++ tx "nationalNumberPattern" "80[0-2]\d{6}"
  ++ en "premiumRate"
  ++ en "territory".

Definition ev_41 : list event :=
  st "territory" [("id", "CH"); ("countryCode", "41"); ("internationalPrefix", "00"); ("nationalPrefix", "0"); ("mobileNumberPortableRegion", "true")]
  ++ st "availableFormats" []
  ++ st "numberFormat" [("pattern", "(\d{3})(\d{3})(\d{3})"); ("nationalPrefixFormattingRule", "$NP$FG")]
  ++ tx "leadingDigits" "8[047]|90"
  ++ tx "format" "$1 $2 $3"
  ++ en "numberFormat"
  ++ st "numberFormat" [("pattern", "(\d{2})(\d{3})(\d{2})(\d{2})"); ("nationalPrefixFormattingRule", "$NP$FG")]
  ++ tx "leadingDigits" "[2-79]|81"
  ++ tx "format" "$1 $2 $3 $4"
  ++ en "numberFormat"
  ++ st "numberFormat" [("pattern", "(\d{3})(\d{2})(\d{3})(\d{2})(\d{2})"); ("nationalPrefixFormattingRule", "$NP$FG")]
  ++ tx "leadingDigits" "8"
  ++ tx "format" "$1 $2 $3 $4 $5"
  ++ en "numberFormat"
  ++ en "availableFormats"
  ++ st "generalDesc" []
  ++ tx "nationalNumberPattern" "8\d{11}|[2-9]\d{8}"
  ++ en "generalDesc"
  ++ st "fixedLine" []
  ++ em "possibleLengths" [("national", "9")]
  ++ tx "exampleNumber" "212345678"
  ++ tx "nationalNumberPattern" "(?:2[12467]|3[1-4]|4[134]|5[256]|6[12]|[7-9]1)\d{7}"
  ++ en "fixedLine"
  ++ st "mobile" []
  ++ em "possibleLengths" [("national", "9")]
  ++ tx "exampleNumber" "781234567"
  ++ tx "nationalNumberPattern" "(?:6[89]|7[235-9])\d{7}"
  ++ en "mobile"
  ++ st "pager" []
  ++ em "possibleLengths" [("national", "9")]
  ++ tx "exampleNumber" "740123456"
  ++ tx "nationalNumberPattern" "74[0248]\d{6}"
  ++ en "pager"
  ++ st "tollFree" []
  ++ em "possibleLengths" [("national", "9")]
  ++ tx "exampleNumber" "800123456"
  ++ tx "nationalNumberPattern" "800\d{6}"
  ++ en "tollFree"
  ++ st "premiumRate" []
  ++ em "possibleLengths" [("national", "9")]
  ++ tx "exampleNumber" "900123456"
  ++ tx "nationalNumberPattern" "90[016]\d{6}"
  ++ en "premiumRate"
  ++ st "sharedCost" []
  ++ em "possibleLengths" [("national", "9")]
  ++ tx "exampleNumber" "840123456"
  ++ tx "nationalNumberPattern" "84[0248]\d{6}"
  ++ en "sharedCost"
  ++ st "personalNumber" []
  ++ em "possibleLengths" [("national", "9")]
  ++ tx "exampleNumber" "878123456"
  ++ tx "nationalNumberPattern" "878\d{6}"
  ++ en "personalNumber"
  ++ st "uan" []
  ++ em "possibleLengths" [("national", "9")]
  ++ tx "exampleNumber" "581234567"
  ++ tx "nationalNumberPattern" "5[18]\d{7}"
  ++ en "uan"
  ++ st "voicemail" []
  ++ em "possibleLengths" [("national", "12")]
  ++ tx "exampleNumber" "860123456789"
  ++ tx "nationalNumberPattern" "860\d{9}"
  ++ en "voicemail"
  ++ en "territory".

Definition ev_42 : list event :=
  st "territory" [("id", "CI"); ("countryCode", "225"); ("internationalPrefix", "00")]
  ++ st "availableFormats" []
  ++ st "numberFormat" [("pattern", "(\d{2})(\d{2})(\d)(\d{5})")]
  ++ tx "leadingDigits" "2"
  ++ tx "format" "$1 $2 $3 $4"
  ++ en "numberFormat"
  ++ st "numberFormat" [("pattern", "(\d{2})(\d{2})(\d{2})(\d{4})")]
  ++ tx "leadingDigits" "0"
  ++ tx "format" "$1 $2 $3 $4"
  ++ en "numberFormat"
  ++ en "availableFormats"
  ++ st "generalDesc" []
  ++ tx "nationalNumberPattern" "[02]\d{9}"
  ++ en "generalDesc"
  ++ st "fixedLine" []
  ++ em "possibleLengths" [("national", "10")]
  ++ tx "exampleNumber" "2123456789"
  ++ tx "nationalNumberPattern" "2(?:[15]\d{3}|7(?:2(?:0[23]|1[2357]|2[245]|3[45]|4[3-5])|3(?:06|1[69]|[2-6]7)))\d{5}"
  ++ en "fixedLine"
  ++ st "mobile" []
  ++ em "possibleLengths" [("national", "10")]
  ++ tx "exampleNumber" "0123456789"
  ++ tx "nationalNumberPattern" "0[157]\d{8}"
  ++ en "mobile"
  ++ en "territory".

Definition ev_43 : list event :=
  st "territory" [("id", "CK"); ("countryCode", "682"); ("internationalPrefix", "00")]
  ++ st "availableFormats" []
  ++ st "numberFormat" [("pattern", "(\d{2})(\d{3})")]
  ++ tx "leadingDigits" "[2-578]"
  ++ tx "format" "$1 $2"
  ++ en "numberFormat"
  ++ en "availableFormats"
  ++ st "generalDesc" []
  ++ tx "nationalNumberPattern" "[2-578]\d{4}"
  ++ en "generalDesc"
  ++ st "fixedLine" []
  ++ em "possibleLengths" [("national", "5")]
  ++ tx "exampleNumber" "21234"
  ++ tx "nationalNumberPattern" "(?:2\d|3[13-7]|4[1-5])\d{3}"
  ++ en "fixedLine"
  ++ st "mobile" []
  ++ em "possibleLengths" [("national", "5")]
  ++ tx "exampleNumber" "71234"
  ++ tx "nationalNumberPattern" "[578]\d{4}"
  ++ en "mobile"
  ++ en "territory".

Definition ev_44 : list event :=
  st "territory" [("id", "CL"); ("countryCode", "56"); ("internationalPrefix", "(?:0|1(?:1[0-69]|2[02-5]|5[13-58]|69|7[0167]|8[018]))0"); ("mobileNumberPortableRegion", "true")]
  ++ st "availableFormats" []
  ++ st "numberFormat" [("pattern", "(\d{4})")]
  ++ tx "leadingDigits" "1(?:[03-589]|21)|[29]0|78"
  ++ tx "format" "$1"
  ++ tx "intlFormat" "NA"
  ++ en "numberFormat"
  ++ st "numberFormat" [("pattern", "(\d{5})(\d{4})"); ("nationalPrefixFormattingRule", "($FG)")]
  ++ tx "leadingDigits" "219"
  ++ tx "leadingDigits" "2196"
  ++ tx "format" "$1 $2"
  ++ en "numberFormat"
  ++ st "numberFormat" [("pattern", "(\d{3})(\d{3})(\d{3})")]
  ++ tx "leadingDigits" "60|809"
  ++ tx "format" "$1 $2 $3"
  ++ en "numberFormat"
  ++ st "numberFormat" [("pattern", "(\d{2})(\d{3})(\d{4})")]
  ++ tx "leadingDigits" "44"
  ++ tx "format" "$1 $2 $3"
  ++ en "numberFormat"
  ++ st "numberFormat" [("pattern", "(\d)(\d{4})(\d{4})"); ("nationalPrefixFormattingRule", "($FG)")]
  ++ tx "leadingDigits" "2[1-36]"
  ++ tx "format" "$1 $2 $3"
  ++ en "numberFormat"
  ++ st "numberFormat" [("pattern", "(\d)(\d{4})(\d{4})")]
  ++ tx "leadingDigits" "9(?:10|[2-9])"
  ++ tx "format" "$1 $2 $3"
  ++ en "numberFormat"
  ++ st "numberFormat" [("pattern", "(\d{2})(\d{3})(\d{4})"); ("nationalPrefixFormattingRule", "($FG)")]
  ++ tx "leadingDigits" "3[2-5]|[47]|5[1-3578]|6[13-57]|8(?:0[1-8]|[1-9])"
  ++ tx "format" "$1 $2 $3"
  ++ en "numberFormat"
  ++ st "numberFormat" [("pattern", "(\d{3})(\d{3})(\d{3,4})")]
  ++ tx "leadingDigits" "60|8"
  ++ tx "format" "$1 $2 $3"
  ++ en "numberFormat"
  ++ st "numberFormat" [("pattern", "(\d{4})(\d{3})(\d{4})")]
  ++ tx "leadingDigits" "1"
  ++ tx "format" "$1 $2 $3"
  ++ en "numberFormat"
  ++ st "numberFormat" [("pattern", "(\d{3})(\d{3})(\d{2})(\d{3})")]
  ++ tx "leadingDigits" "60"
  ++ tx "format" "$1 $2 $3 $4"
  ++ en "numberFormat"
  ++ en "availableFormats"
  ++ st "generalDesc" []
  ++ tx "nationalNumberPattern" "12300\d{6}|6\d{9,10}|[2-9]\d{8}"
  ++ en "generalDesc"
  ++ st "noInternationalDialling" []
  ++ em "possibleLengths" [("national", "10,11")]
  ++ tx "nationalNumberPattern" "600\d{7,8}"
  ++ en "noInternationalDialling"
  ++ st "fixedLine" []
  ++ em "possibleLengths" [("national", "9")]
  ++ tx "exampleNumber" "600123456"
  ++ tx "nationalNumberPattern" "2(?:1982[0-6]|3314[05-9])\d{3}|(?:2(?:1(?:160|962)|3(?:(?:[24]\d|50)\d|3(?:[034679]\d|1[0-35-9]|2[1-9]|5[0-24-9]|8[0-389])|600)|646[59])|(?:600|80[1-9])\d\d|9(?:(?:10[0-2]|7[1-9]\d)\d|3(?:[0-57-9]\d\d|6(?:0[02-9]|[1-9]\d))|6(?:[0-8]\d\d|9(?:[02-79]\d|1[05-9]))|9(?:[03-9]\d\d|1(?:[0235-9]\d|4[0-24-9])|2(?:[0-79]\d|8[0-46-9]))))\d{4}|(?:22|3[2-5]|[47][1-35]|5[1-3578]|6[13-57]|8[1-9]|9[2458])\d{7}"
  ++ en "fixedLine"
  ++ st "mobile" []
  ++ em "possibleLengths" [("national", "9")]
  ++ tx "exampleNumber" "221234567"
  ++ tx "nationalNumberPattern" "2(?:1982[0-6]|3314[05-9])\d{3}|(?:2(?:1(?:160|962)|3(?:(?:[24]\d|50)\d|3(?:[034679]\d|1[0-35-9]|2[1-9]|5[0-24-9]|8[0-389])|600)|646[59])|80[1-8]\d\d|9(?:(?:10[0-2]|7[1-9]\d)\d|3(?:[0-57-9]\d\d|6(?:0[02-9]|[1-9]\d))|6(?:[0-8]\d\d|9(?:[02-79]\d|1[05-9]))|9(?:[03-9]\d\d|1(?:[0235-9]\d|4[0-24-9])|2(?:[0-79]\d|8[0-46-9]))))\d{4}|(?:22|3[2-5]|[47][1-35]|5[1-3578]|6[13-57]|8[1-9]|9[2458])\d{7}"
  ++ en "mobile"
  ++ st "tollFree" []
  ++ em "possibleLengths" [("national", "9,11")]
  ++ tx "exampleNumber" "800123456"
  ++ tx "nationalNumberPattern" "(?:123|8)00\d{6}"
  ++ en "tollFree"
  ++ st "sharedCost" []
  ++ em "possibleLengths" [("national", "10,11")]
  ++ tx "exampleNumber" "6001234567"
  ++ tx "nationalNumberPattern" "600\d{7,8}"
  ++ en "sharedCost"
  ++ st "voip" []
  ++ em "possibleLengths" [("national", "9")]
  ++ tx "exampleNumber" "441234567"
  ++ tx "nationalNumberPattern" "44\d{7}"
  ++ en "voip"
  ++ en "territory".

Definition ev_45 : list event :=
  st "territory" [("id", "CM"); ("countryCode", "237"); ("internationalPrefix", "00"); ("mobileNumberPortableRegion", "true")]
  ++ st "availableFormats" []
  ++ st "numberFormat" [("pattern", "(\d{2})(\d{2})(\d{2})(\d{2})")]
  ++ tx "leadingDigits" "88"
  ++ tx "format" "$1 $2 $3 $4"
  ++ en "numberFormat"
  ++ st "numberFormat" [("pattern", "(\d)(\d{2})(\d{2})(\d{2})(\d{2})")]
  ++ tx "leadingDigits" "[26]|88"
  ++ tx "format" "$1 $2 $3 $4 $5"
  ++ en "numberFormat"
  ++ en "availableFormats"
  ++ st "generalDesc" []
  ++ tx "nationalNumberPattern" "[26]\d{8}|88\d{6,7}"
  ++ en "generalDesc"
  ++ st "fixedLine" []
  ++ em "possibleLengths" [("national", "9")]
  ++ tx "exampleNumber" "222123456"
  ++ tx "nationalNumberPattern" "2(?:22|33)\d{6}"
  ++ en "fixedLine"
  ++ st "mobile" []
  ++ em "possibleLengths" [("national", "9")]
  ++ tx "exampleNumber" "671234567"
  ++ tx "nationalNumberPattern" "(?:24[23]|6(?:[25-9]\d|4[01]))\d{6}"
  ++ en "mobile"
  ++ st "tollFree" []
  ++ em "possibleLengths" [("national", "8,9")]
  ++ tx "exampleNumber" "88012345"
  ++ tx "nationalNumberPattern" "88\d{6,7}"
  ++ en "tollFree"
  ++ en "territory".

Definition ev_46 : list event :=
  st "territory" [("id", "CN"); ("countryCode", "86"); ("preferredInternationalPrefix", "00"); ("internationalPrefix", "00|1(?:[12]\d|79)\d\d00"); ("nationalPrefix", "0"); ("nationalPrefixForParsing", "(1(?:[12]\d|79)\d\d)|0")]
  ++ st "availableFormats" []
  ++ st "numberFormat" [("pattern", "(\d{5,6})")]
  ++ tx "leadingDigits" "1(?:00|2[13])|9[56]"
  ++ tx "leadingDigits" "1(?:00|2(?:1|39))|9[56]"
  ++ tx "leadingDigits" "1(?:00|2(?:1|395))|9[56]"
  ++ tx "format" "$1"
  ++ tx "intlFormat" "NA"
  ++ en "numberFormat"
  ++ st "numberFormat" [("pattern", "(\d{5,6})")]
  ++ tx "leadingDigits" "1(?:0|23)|781|[1-9]12"
  ++ tx "leadingDigits" "1(?:0|23)|7812|[1-9]123"
  ++ tx "leadingDigits" "1(?:0|23(?:[0-8]|9[0-46-9]))|78123|[1-9]123"
  ++ tx "format" "$1"
  ++ tx "intlFormat" "NA"
  ++ en "numberFormat"
  ++ st "numberFormat" [("pattern", "(\d{2})(\d{5,6})"); ("nationalPrefixFormattingRule", "$NP$FG"); ("carrierCodeFormattingRule", "$CC $FG")]
  ++ tx "leadingDigits" "(?:10|2[0-57-9])[19]|3(?:[157]|35|49|9[1-68])|4(?:1[124-9]|2[179]|6[47-9]|7|8[23])|5(?:[1357]|2[37]|4[36]|6[1-46]|80)|6(?:3[1-5]|6[0238]|9[12])|7(?:01|[1579]|2[248]|3[014-9]|4[3-6]|6[023689])|8(?:07|1[236-8]|2[5-7]|[37]|8[36-8]|9[1-8])|9(?:0[1-3689]|1[1-79]|3|4[13]|5[1-5]|7[0-79]|9[0-35-9])|(?:4[35]|59|85)[1-9]"
  ++ tx "leadingDigits" "(?:10|2[0-57-9])(?:1[02]|9[56])|8078|(?:3(?:[157]\d|35|49|9[1-68])|4(?:1[124-9]|2[179]|[35][1-9]|6[47-9]|7\d|8[23])|5(?:[1357]\d|2[37]|4[36]|6[1-46]|80|9[1-9])|6(?:3[1-5]|6[0238]|9[12])|7(?:01|[1579]\d|2[248]|3[014-9]|4[3-6]|6[023689])|8(?:1[236-8]|2[5-7]|[37]\d|5[1-9]|8[36-8]|9[1-8])|9(?:0[1-3689]|1[1-79]|3\d|4[13]|5[1-5]|7[0-79]|9[0-35-9]))1"
  ++ tx "leadingDigits" "10(?:1(?:0|23)|9[56])|2[0-57-9](?:1(?:00|23)|9[56])|80781|(?:3(?:[157]\d|35|49|9[1-68])|4(?:1[124-9]|2[179]|[35][1-9]|6[47-9]|7\d|8[23])|5(?:[1357]\d|2[37]|4[36]|6[1-46]|80|9[1-9])|6(?:3[1-5]|6[0238]|9[12])|7(?:01|[1579]\d|2[248]|3[014-9]|4[3-6]|6[023689])|8(?:1[236-8]|2[5-7]|[37]\d|5[1-9]|8[36-8]|9[1-8])|9(?:0[1-3689]|1[1-79]|3\d|4[13]|5[1-5]|7[0-79]|9[0-35-9]))12"
  ++ tx "leadingDigits" "10(?:1(?:0|23)|9[56])|2[0-57-9](?:1(?:00|23)|9[56])|807812|(?:3(?:[157]\d|35|49|9[1-68])|4(?:1[124-9]|2[179]|[35][1-9]|6[47-9]|7\d|8[23])|5(?:[1357]\d|2[37]|4[36]|6[1-46]|80|9[1-9])|6(?:3[1-5]|6[0238]|9[12])|7(?:01|[1579]\d|2[248]|3[014-9]|4[3-6]|6[023689])|8(?:1[236-8]|2[5-7]|[37]\d|5[1-9]|8[36-8]|9[1-8])|9(?:0[1-3689]|1[1-79]|3\d|4[13]|5[1-5]|7[0-79]|9[0-35-9]))123"
  ++ tx "leadingDigits" "10(?:1(?:0|23)|9[56])|2[0-57-9](?:1(?:00|23)|9[56])|(?:3(?:[157]\d|35|49|9[1-68])|4(?:1[124-9]|2[179]|[35][1-9]|6[47-9]|7\d|8[23])|5(?:[1357]\d|2[37]|4[36]|6[1-46]|80|9[1-9])|6(?:3[1-5]|6[0238]|9[12])|7(?:01|[1579]\d|2[248]|3[014-9]|4[3-6]|6[023689])|8(?:078|1[236-8]|2[5-7]|[37]\d|5[1-9]|8[36-8]|9[1-8])|9(?:0[1-3689]|1[1-79]|3\d|4[13]|5[1-5]|7[0-79]|9[0-35-9]))123"
  ++ tx "format" "$1 $2"
  ++ en "numberFormat"
  ++ st "numberFormat" [("pattern", "(\d{3})(\d{4})")]
  ++ tx "leadingDigits" "[1-9]"
  ++ tx "leadingDigits" "1[1-9]|26|[3-9]|(?:10|2[0-57-9])(?:[0-8]|9[0-47-9])"
  ++ tx "leadingDigits" "1(?:0(?:[02-8]|1(?:[013-9]|2[0-24-9])|9[0-47-9])|[1-9])|2(?:[0-57-9](?:[02-8]|1(?:0[1-9]|[13-9]|2[0-24-9])|9[0-47-9])|6)|[3-9]"
  ++ tx "leadingDigits" "1(?:0(?:[02-8]|1(?:[013-9]|2[0-24-9])|9[0-47-9])|[1-9])|2(?:[0-57-9](?:[02-8]|1(?:0[1-9]|[13-9]|2[0-24-9])|9[0-47-9])|6)|3(?:[0268]|3[0-46-9]|4[0-8]|9[079])|4(?:[049]|1[03]|2[02-68]|[35]0|6[0-356]|8[014-9])|5(?:0|2[0-24-689]|4[0-2457-9]|6[057-9]|8[1-9]|90)|6(?:[0-24578]|3[06-9]|6[14-79]|9[03-9])|7(?:0[02-9]|2[0135-79]|3[23]|4[0-27-9]|6[1457]|8)|8(?:[046]|1[01459]|2[0-489]|50|8[0-2459]|9[09])|9(?:0[0457]|1[08]|[268]|4[024-9]|5[06-9]|78|94)|(?:3(?:[157]\d|35|49|9[1-68])|4(?:1[124-9]|2[179]|[35][1-9]|6[47-9]|7\d|8[23])|5(?:[1357]\d|2[37]|4[36]|6[1-46]|80|9[1-9])|6(?:3[1-5]|6[0238]|9[12])|7(?:01|[1579]\d|2[248]|3[014-9]|4[3-6]|6[023689])|8(?:1[236-8]|2[5-7]|[37]\d|5[1-9]|8[36-8]|9[1-8])|9(?:0[1-3689]|1[1-79]|3\d|4[13]|5[1-5]|7[0-79]|9[0-35-9]))(?:[02-9]|1(?:[013-9]|2[0-24-9]))"
  ++ tx "leadingDigits" "1(?:0(?:[02-8]|1(?:[013-9]|2[0-24-9])|9[0-47-9])|[1-9])|2(?:[0-57-9](?:[02-8]|1(?:0[1-9]|[13-9]|2[0-24-9])|9[0-47-9])|6)|3(?:[0268]|3[0-46-9]|4[0-8]|9[079])|4(?:[049]|1[03]|2[02-68]|[35]0|6[0-356]|8[014-9])|5(?:0|2[0-24-689]|4[0-2457-9]|6[057-9]|8[1-9]|90)|6(?:[0-24578]|3[06-9]|6[14-79]|9[03-9])|7(?:0[02-9]|2[0135-79]|3[23]|4[0-27-9]|6[1457]|8)|8(?:0(?:[0-689]|7[0-79])|1[01459]|2[0-489]|[46]|50|8[0-2459]|9[09])|9(?:0[0457]|1[08]|[268]|4[024-9]|5[06-9]|78|94)|(?:3(?:[157]\d|35|49|9[1-68])|4(?:1[124-9]|2[179]|[35][1-9]|6[47-9]|7\d|8[23])|5(?:[1357]\d|2[37]|4[36]|6[1-46]|80|9[1-9])|6(?:3[1-5]|6[0238]|9[12])|7(?:01|[1579]\d|2[248]|3[014-9]|4[3-6]|6[023689])|8(?:078|1[236-8]|2[5-7]|[37]\d|5[1-9]|8[36-8]|9[1-8])|9(?:0[1-3689]|1[1-79]|3\d|4[13]|5[1-5]|7[0-79]|9[0-35-9]))(?:[02-9]|1(?:[013-9]|2[0-24-9]))"
  ++ tx "format" "$1 $2"
  ++ tx "intlFormat" "NA"
  ++ en "numberFormat"
  ++ st "numberFormat" [("pattern", "(\d{4})(\d{4})")]
  ++ tx "leadingDigits" "16[08]"
  ++ tx "format" "$1 $2"
  ++ tx "intlFormat" "NA"
  ++ en "numberFormat"
  ++ st "numberFormat" [("pattern", "(\d{3})(\d{5,6})"); ("nationalPrefixFormattingRule", "$NP$FG"); ("carrierCodeFormattingRule", "$CC $FG")]
  ++ tx "leadingDigits" "3(?:[157]|35|49|9[1-68])|4(?:[17]|2[179]|6[47-9]|8[23])|5(?:[1357]|2[37]|4[36]|6[1-46]|80)|6(?:3[1-5]|6[0238]|9[12])|7(?:01|[1579]|2[248]|3[014-9]|4[3-6]|6[023689])|8(?:1[236-8]|2[5-7]|[37]|8[36-8]|9[1-8])|9(?:0[1-3689]|1[1-79]|[379]|4[13]|5[1-5])|(?:4[35]|59|85)[1-9]"
  ++ tx "leadingDigits" "(?:3(?:[157]\d|35|49|9[1-68])|4(?:[17]\d|2[179]|[35][1-9]|6[47-9]|8[23])|5(?:[1357]\d|2[37]|4[36]|6[1-46]|80|9[1-9])|6(?:3[1-5]|6[0238]|9[12])|7(?:01|[1579]\d|2[248]|3[014-9]|4[3-6]|6[023689])|8(?:1[236-8]|2[5-7]|[37]\d|5[1-9]|8[36-8]|9[1-8])|9(?:0[1-3689]|1[1-79]|[379]\d|4[13]|5[1-5]))[19]"
  ++ tx "leadingDigits" "85[23](?:10|95)|(?:3(?:[157]\d|35|49|9[1-68])|4(?:[17]\d|2[179]|[35][1-9]|6[47-9]|8[23])|5(?:[1357]\d|2[37]|4[36]|6[1-46]|80|9[1-9])|6(?:3[1-5]|6[0238]|9[12])|7(?:01|[1579]\d|2[248]|3[014-9]|4[3-6]|6[023689])|8(?:1[236-8]|2[5-7]|[37]\d|5[14-9]|8[36-8]|9[1-8])|9(?:0[1-3689]|1[1-79]|[379]\d|4[13]|5[1-5]))(?:10|9[56])"
  ++ tx "leadingDigits" "85[23](?:100|95)|(?:3(?:[157]\d|35|49|9[1-68])|4(?:[17]\d|2[179]|[35][1-9]|6[47-9]|8[23])|5(?:[1357]\d|2[37]|4[36]|6[1-46]|80|9[1-9])|6(?:3[1-5]|6[0238]|9[12])|7(?:01|[1579]\d|2[248]|3[014-9]|4[3-6]|6[023689])|8(?:1[236-8]|2[5-7]|[37]\d|5[14-9]|8[36-8]|9[1-8])|9(?:0[1-3689]|1[1-79]|[379]\d|4[13]|5[1-5]))(?:100|9[56])"
  ++ tx "format" "$1 $2"
  ++ en "numberFormat"
  ++ st "numberFormat" [("pattern", "(\d{4})(\d{4})")]
  ++ tx "leadingDigits" "[1-9]"
  ++ tx "leadingDigits" "1(?:0(?:[02-8]|1[1-9]|9[0-47-9])|[1-9])|2(?:[0-57-9](?:[0-8]|9[0-47-9])|6)|[3-9]"
  ++ tx "leadingDigits" "1(?:0(?:[02-8]|1[1-9]|9[0-47-9])|[1-9])|26|3(?:[0268]|4[0-8]|9[079])|4(?:[049]|2[02-68]|[35]0|6[0-356]|8[014-9])|5(?:0|2[0-24-689]|4[0-2457-9]|6[057-9]|8[1-9]|90)|6(?:[0-24578]|3[06-9]|6[14-79]|9[03-9])|7(?:0[02-9]|2[0135-79]|3[23]|4[0-27-9]|6[1457]|8)|8(?:[046]|1[01459]|2[0-489]|5(?:0|[23][0-8])|8[0-2459]|9[09])|9(?:0[0457]|1[08]|[268]|4[024-9]|5[06-9])|(?:33|85[23]9)[0-46-9]|(?:2[0-57-9]|3(?:[157]\d|35|49|9[1-68])|4(?:[17]\d|2[179]|[35][1-9]|6[47-9]|8[23])|5(?:[1357]\d|2[37]|4[36]|6[1-46]|80|9[1-9])|6(?:3[1-5]|6[0238]|9[12])|7(?:01|[1579]\d|2[248]|3[014-9]|4[3-6]|6[023689])|8(?:1[236-8]|2[5-7]|[37]\d|5[14-9]|8[36-8]|9[1-8])|9(?:0[1-3689]|1[1-79]|[379]\d|4[13]|5[1-5]))(?:[0-8]|9[0-47-9])"
  ++ tx "leadingDigits" "1(?:0[02-8]|[1-9])|2(?:[0-57-9][0-8]|6)|3(?:[0268]|3[0-46-9]|4[0-8]|9[079])|4(?:[049]|2[02-68]|[35]0|6[0-356]|8[014-9])|5(?:0|2[0-24-689]|4[0-2457-9]|6[057-9]|90)|6(?:[0-24578]|3[06-9]|6[14-79]|9[03-9])|7(?:0[02-9]|2[0135-79]|3[23]|4[0-27-9]|6[1457]|8)|8(?:[046]|1[01459]|2[0-489]|5(?:0|[23](?:[02-8]|1[1-9]|9[0-46-9]))|8[0-2459]|9[09])|9(?:0[0457]|1[08]|[268]|4[024-9]|5[06-9])|(?:10|2[0-57-9])9[0-47-9]|(?:101|58|85[23]10)[1-9]|(?:3(?:[157]\d|35|49|9[1-68])|4(?:[17]\d|2[179]|[35][1-9]|6[47-9]|8[23])|5(?:[1357]\d|2[37]|4[36]|6[1-46]|80|9[1-9])|6(?:3[1-5]|6[0238]|9[12])|7(?:01|[1579]\d|2[248]|3[014-9]|4[3-6]|6[023689])|8(?:1[236-8]|2[5-7]|[37]\d|5[14-9]|8[36-8]|9[1-8])|9(?:0[1-3689]|1[1-79]|[379]\d|4[13]|5[1-5]))(?:[02-8]|1(?:0[1-9]|[1-9])|9[0-47-9])"
  ++ tx "format" "$1 $2"
  ++ tx "intlFormat" "NA"
  ++ en "numberFormat"
  ++ st "numberFormat" [("pattern", "(\d{3})(\d{3})(\d{4})")]
  ++ tx "leadingDigits" "(?:4|80)0"
  ++ tx "format" "$1 $2 $3"
  ++ en "numberFormat"
  ++ st "numberFormat" [("pattern", "(\d{2})(\d{4})(\d{4})"); ("nationalPrefixFormattingRule", "$NP$FG"); ("nationalPrefixOptionalWhenFormatting", "true"); ("carrierCodeFormattingRule", "$CC $FG")]
  ++ tx "leadingDigits" "10|2(?:[02-57-9]|1[1-9])"
  ++ tx "leadingDigits" "10|2(?:[02-57-9]|1[1-9])"
  ++ tx "leadingDigits" "10[0-79]|2(?:[02-57-9]|1[1-79])|(?:10|21)8(?:0[1-9]|[1-9])"
  ++ tx "format" "$1 $2 $3"
  ++ en "numberFormat"
  ++ st "numberFormat" [("pattern", "(\d{3})(\d{3})(\d{4})"); ("nationalPrefixFormattingRule", "$NP$FG"); ("nationalPrefixOptionalWhenFormatting", "true"); ("carrierCodeFormattingRule", "$CC $FG")]
  ++ tx "leadingDigits" "3(?:[3-59]|7[02-68])|4(?:[26-8]|3[3-9]|5[2-9])|5(?:3[03-9]|[468]|7[028]|9[2-46-9])|6|7(?:[0-247]|3[04-9]|5[0-4689]|6[2368])|8(?:[1-358]|9[1-7])|9(?:[013479]|5[1-5])|(?:[34]1|55|79|87)[02-9]"
  ++ tx "format" "$1 $2 $3"
  ++ en "numberFormat"
  ++ st "numberFormat" [("pattern", "(\d{3})(\d{7,8})")]
  ++ tx "leadingDigits" "9"
  ++ tx "format" "$1 $2"
  ++ en "numberFormat"
  ++ st "numberFormat" [("pattern", "(\d{4})(\d{3})(\d{4})"); ("nationalPrefixFormattingRule", "$NP$FG"); ("nationalPrefixOptionalWhenFormatting", "true"); ("carrierCodeFormattingRule", "$CC $FG")]
  ++ tx "leadingDigits" "80"
  ++ tx "format" "$1 $2 $3"
  ++ en "numberFormat"
  ++ st "numberFormat" [("pattern", "(\d{3})(\d{4})(\d{4})"); ("nationalPrefixFormattingRule", "$NP$FG"); ("nationalPrefixOptionalWhenFormatting", "true"); ("carrierCodeFormattingRule", "$CC $FG")]
  ++ tx "leadingDigits" "[3-578]"
  ++ tx "format" "$1 $2 $3"
  ++ en "numberFormat"
  ++ st "numberFormat" [("pattern", "(\d{3})(\d{4})(\d{4})"); ("carrierCodeFormattingRule", "$CC $FG")]
  ++ tx "leadingDigits" "1[3-9]"
  ++ tx "format" "$1 $2 $3"
  ++ en "numberFormat"
  ++ st "numberFormat" [("pattern", "(\d{2})(\d{3})(\d{3})(\d{4})"); ("nationalPrefixFormattingRule", "$NP$FG"); ("nationalPrefixOptionalWhenFormatting", "true")]
  ++ tx "leadingDigits" "[12]"
  ++ tx "format" "$1 $2 $3 $4"
  ++ en "numberFormat"
  ++ en "availableFormats"
  ++ st "generalDesc" []
  ++ tx "nationalNumberPattern" "(?:(?:1[03-689]|2\d)\d\d|6)\d{8}|1\d{10}|[126]\d{6}(?:\d(?:\d{2})?)?|86\d{5,6}|(?:[3-579]\d|8[0-57-9])\d{5,9}"
  ++ en "generalDesc"
  ++ st "noInternationalDialling" []
  ++ em "possibleLengths" [("national", "[10-12]")]
  ++ tx "nationalNumberPattern" "(?:(?:10|21)8|[48])00\d{7}|950\d{7,8}"
  ++ en "noInternationalDialling"
  ++ st "fixedLine" []
  ++ em "possibleLengths" [("national", "[7-11]"); ("localOnly", "5,6")]
  ++ tx "exampleNumber" "1012345678"
  ++ tx "nationalNumberPattern" "(?:10(?:[02-79]\d\d|[18](?:0[1-9]|[1-9]\d))|2(?:[02-57-9]\d{3}|1(?:[18](?:0[1-9]|[1-9]\d)|[2-79]\d\d))|(?:41[03]|8078|9(?:78|94))\d\d)\d{5}|(?:10|2[0-57-9])(?:1(?:00|23)\d\d|95\d{3,4})|(?:41[03]|9(?:78|94))(?:100\d\d|95\d{3,4})|8078123|(?:43[35]|754|851)\d{7,8}|(?:43[35]|754|851)(?:1(?:00\d|23)\d|95\d{3,4})|(?:3(?:11|7[179])|4(?:[15]1|3[12])|5(?:1\d|2[37]|3[12]|51|7[13-79]|9[15])|7(?:[39]1|5[57]|6[09])|8(?:71|98))(?:[02-8]\d{7}|1(?:0(?:0\d\d(?:\d{3})?|[1-9]\d{5})|[13-9]\d{6}|2(?:[0-24-9]\d{5}|3\d(?:\d{4})?))|9(?:[0-46-9]\d{6}|5\d{3}(?:\d(?:\d{2})?)?))|(?:3(?:1[02-9]|35|49|5\d|7[02-68]|9[1-68])|4(?:1[24-9]|2[179]|3[46-9]|5[2-9]|6[47-9]|7\d|8[23])|5(?:3[03-9]|4[36]|5[02-9]|6[1-46]|7[028]|80|9[2-46-9])|6(?:3[1-5]|6[0238]|9[12])|7(?:01|[17]\d|2[248]|3[04-9]|4[3-6]|5[0-3689]|6[2368]|9[02-9])|8(?:1[236-8]|2[5-7]|3\d|5[2-9]|7[02-9]|8[36-8]|9[1-7])|9(?:0[1-3689]|1[1-79]|3\d|4[13]|5[1-5]|7[0-79]|9[0-35-9]))(?:[02-8]\d{6}|1(?:0(?:0\d\d(?:\d{2})?|[1-9]\d{4})|[13-9]\d{5}|2(?:[0-24-9]\d{4}|3\d(?:\d{3})?))|9(?:[0-46-9]\d{5}|5\d{3,5}))"
  ++ en "fixedLine"
  ++ st "mobile" []
  ++ em "possibleLengths" [("national", "11")]
  ++ tx "exampleNumber" "13123456789"
  ++ tx "nationalNumberPattern" "1740[0-5]\d{6}|1(?:[38]\d|4[57]|[59][0-35-9]|6[25-7]|7[0-35-8])\d{8}"
  ++ en "mobile"
  ++ st "tollFree" []
  ++ em "possibleLengths" [("national", "10,12")]
  ++ tx "exampleNumber" "8001234567"
  ++ tx "nationalNumberPattern" "(?:(?:10|21)8|8)00\d{7}"
  ++ en "tollFree"
  ++ st "premiumRate" []
  ++ em "possibleLengths" [("national", "8")]
  ++ tx "exampleNumber" "16812345"
  ++ tx "nationalNumberPattern" "16[08]\d{5}"
  ++ en "premiumRate"
  ++ st "sharedCost" []
  ++ em "possibleLengths" [("national", "[7-11]"); ("localOnly", "5,6")]
  ++ tx "exampleNumber" "4001234567"
  ++ tx "nationalNumberPattern" "10(?:10\d{4}|96\d{3,4})|400\d{7}|950\d{7,8}|(?:2[0-57-9]|3(?:[157]\d|35|49|9[1-68])|4(?:[17]\d|2[179]|[35][1-9]|6[47-9]|8[23])|5(?:[1357]\d|2[37]|4[36]|6[1-46]|80|9[1-9])|6(?:3[1-5]|6[0238]|9[12])|7(?:01|[1579]\d|2[248]|3[014-9]|4[3-6]|6[023689])|8(?:1[236-8]|2[5-7]|[37]\d|5[14-9]|8[36-8]|9[1-8])|9(?:0[1-3689]|1[1-79]|[379]\d|4[13]|5[1-5]))96\d{3,4}"
  ++ en "sharedCost"
  ++ en "territory".

Definition ev_47 : list event :=
  st "territory" [("id", "CO"); ("countryCode", "57"); ("internationalPrefix", "00(?:4(?:[14]4|56)|[579])"); ("nationalPrefix", "0"); ("nationalPrefixForParsing", "0([3579]|4(?:[14]4|56))?"); ("mobileNumberPortableRegion", "true")]
  ++ st "availableFormats" []
  ++ st "numberFormat" [("pattern", "(\d{4})(\d{4})")]
  ++ tx "leadingDigits" "46"
  ++ tx "format" "$1 $2"
  ++ en "numberFormat"
  ++ st "numberFormat" [("pattern", "(\d{3})(\d{7})"); ("nationalPrefixFormattingRule", "($FG)"); ("carrierCodeFormattingRule", "$NP$CC $FG")]
  ++ tx "leadingDigits" "6|90"
  ++ tx "format" "$1 $2"
  ++ en "numberFormat"
  ++ st "numberFormat" [("pattern", "(\d{3})(\d{7})"); ("carrierCodeFormattingRule", "$NP$CC $FG")]
  ++ tx "leadingDigits" "3[0-357]|9[14]"
  ++ tx "format" "$1 $2"
  ++ en "numberFormat"
  ++ st "numberFormat" [("pattern", "(\d)(\d{3})(\d{7})"); ("nationalPrefixFormattingRule", "$NP$FG")]
  ++ tx "leadingDigits" "1"
  ++ tx "format" "$1-$2-$3"
  ++ tx "intlFormat" "$1 $2 $3"
  ++ en "numberFormat"
  ++ en "availableFormats"
  ++ st "generalDesc" []
  ++ tx "nationalNumberPattern" "(?:46|60\d\d)\d{6}|(?:1\d|[39])\d{9}"
  ++ en "generalDesc"
  ++ st "fixedLine" []
  ++ em "possibleLengths" [("national", "8,10"); ("localOnly", "4,7")]
  ++ tx "exampleNumber" "6012345678"
  ++ tx "nationalNumberPattern" "601055(?:[0-4]\d|50)\d\d|6010(?:[0-4]\d|5[0-4])\d{4}|(?:46|60(?:[18][1-9]|[24-7][2-9]))\d{6}"
  ++ en "fixedLine"
  ++ st "mobile" []
  ++ em "possibleLengths" [("national", "10")]
  ++ tx "exampleNumber" "3211234567"
  ++ tx "nationalNumberPattern" "333301[0-5]\d{3}|3333(?:00|2[5-9]|[3-9]\d)\d{4}|(?:3(?:(?:0[0-5]|1\d|5[01]|70)\d|2(?:[0-3]\d|4[1-9])|3(?:00|3[0-24-9]))|9(?:101|408))\d{6}"
  ++ en "mobile"
  ++ st "tollFree" []
  ++ em "possibleLengths" [("national", "11")]
  ++ tx "exampleNumber" "18001234567"
  ++ tx "nationalNumberPattern" "1800\d{7}"
  ++ en "tollFree"
  ++ st "premiumRate" []
  ++ em "possibleLengths" [("national", "10,11")]
  ++ tx "exampleNumber" "19001234567"
  ++ tx "nationalNumberPattern" "(?:19(?:0[01]|4[78])|901)\d{7}"
  ++ en "premiumRate"
  ++ en "territory".

Definition ev_48 : list event :=
  st "territory" [("id", "CR"); ("countryCode", "506"); ("internationalPrefix", "00"); ("nationalPrefixForParsing", "(19(?:0[0-2468]|1[09]|20|66|77|99))")]
  ++ st "availableFormats" []
  ++ st "numberFormat" [("pattern", "(\d{4})(\d{4})"); ("carrierCodeFormattingRule", "$CC $FG")]
  ++ tx "leadingDigits" "[2-7]|8[3-9]"
  ++ tx "format" "$1 $2"
  ++ en "numberFormat"
  ++ st "numberFormat" [("pattern", "(\d{3})(\d{3})(\d{4})"); ("carrierCodeFormattingRule", "$CC $FG")]
  ++ tx "leadingDigits" "[89]"
  ++ tx "format" "$1-$2-$3"
  ++ en "numberFormat"
  ++ en "availableFormats"
  ++ st "generalDesc" []
  ++ tx "nationalNumberPattern" "(?:8\d|90)\d{8}|(?:[24-8]\d{3}|3005)\d{4}"
  ++ en "generalDesc"
  ++ st "fixedLine" []
  ++ em "possibleLengths" [("national", "8")]
  ++ tx "exampleNumber" "22123456"
  ++ tx "nationalNumberPattern" "210[7-9]\d{4}|2(?:[024-7]\d|1[1-9])\d{5}"
  ++ en "fixedLine"
  ++ st "mobile" []
  ++ em "possibleLengths" [("national", "8")]
  ++ tx "exampleNumber" "83123456"
  ++ tx "nationalNumberPattern" "(?:3005\d|6500[01])\d{3}|(?:5[07]|6[0-4]|7[0-3]|8[3-9])\d{6}"
  ++ en "mobile"
  ++ st "tollFree" []
  ++ em "possibleLengths" [("national", "10")]
  ++ tx "exampleNumber" "8001234567"
  ++ tx "nationalNumberPattern" "800\d{7}"
  ++ en "tollFree"
  ++ st "premiumRate" []
  ++ em "possibleLengths" [("national", "10")]
  ++ tx "exampleNumber" "9001234567"
  ++ tx "nationalNumberPattern" "90[059]\d{7}"
  ++ en "premiumRate"
  ++ st "voip" []
  ++ em "possibleLengths" [("national", "8")]
  ++ tx "exampleNumber" "40001234"
  ++ tx "nationalNumberPattern" "(?:210[0-6]|4\d{3}|5100)\d{4}"
  ++ en "voip"
  ++ en "territory".

Definition ev_49 : list event :=
  st "territory" [("id", "CU"); ("countryCode", "53"); ("internationalPrefix", "119"); ("nationalPrefix", "0")]
  ++ st "availableFormats" []
  ++ st "numberFormat" [("pattern", "(\d{2})(\d{4,6})"); ("nationalPrefixFormattingRule", "($NP$FG)")]
  ++ tx "leadingDigits" "2[1-4]|[34]"
  ++ tx "format" "$1 $2"
  ++ en "numberFormat"
  ++ st "numberFormat" [("pattern", "(\d)(\d{6,7})"); ("nationalPrefixFormattingRule", "($NP$FG)")]
  ++ tx "leadingDigits" "7"
  ++ tx "format" "$1 $2"
  ++ en "numberFormat"
  ++ st "numberFormat" [("pattern", "(\d)(\d{7})"); ("nationalPrefixFormattingRule", "$NP$FG")]
  ++ tx "leadingDigits" "[56]"
  ++ tx "format" "$1 $2"
  ++ en "numberFormat"
  ++ st "numberFormat" [("pattern", "(\d{3})(\d{7})"); ("nationalPrefixFormattingRule", "$NP$FG")]
  ++ tx "leadingDigits" "8"
  ++ tx "format" "$1 $2"
  ++ en "numberFormat"
  ++ en "availableFormats"
  ++ st "generalDesc" []
  ++ tx "nationalNumberPattern" "(?:[2-7]|8\d\d)\d{7}|[2-47]\d{6}|[34]\d{5}"
  ++ en "generalDesc"
  ++ st "fixedLine" []
  ++ em "possibleLengths" [("national", "[6-8],10"); ("localOnly", "4,5")]
  ++ tx "exampleNumber" "71234567"
  ++ tx "nationalNumberPattern" "(?:3[23]|4[89])\d{4,6}|(?:31|4[36]|8(?:0[25]|78)\d)\d{6}|(?:2[1-4]|4[1257]|7\d)\d{5,6}"
  ++ en "fixedLine"
  ++ st "mobile" []
  ++ em "possibleLengths" [("national", "8")]
  ++ tx "exampleNumber" "51234567"
  ++ tx "nationalNumberPattern" "(?:5\d|6[2-4])\d{6}"
  ++ en "mobile"
  ++ st "tollFree" []
  ++ em "possibleLengths" [("national", "10")]
  ++ tx "exampleNumber" "8001234567"
  ++ tx "nationalNumberPattern" "800\d{7}"
  ++ en "tollFree"
  ++ st "sharedCost" []
  ++ em "possibleLengths" [("national", "10")]
  ++ tx "exampleNumber" "8071234567"
  ++ tx "nationalNumberPattern" "807\d{7}"
  ++ en "sharedCost"
  ++ en "territory".

Definition ev_50 : list event :=
  st "territory" [("id", "CV"); ("countryCode", "238"); ("internationalPrefix", "0")]
  ++ st "availableFormats" []
  ++ st "numberFormat" [("pattern", "(\d{3})(\d{2})(\d{2})")]
  ++ tx "leadingDigits" "[2-589]"
  ++ tx "format" "$1 $2 $3"
  ++ en "numberFormat"
  ++ en "availableFormats"
  ++ st "generalDesc" []
  ++ tx "nationalNumberPattern" "(?:[2-59]\d\d|800)\d{4}"
  ++ en "generalDesc"
  ++ st "fixedLine" []
  ++ em "possibleLengths" [("national", "7")]
  ++ tx "exampleNumber" "2211234"
  ++ tx "nationalNumberPattern" "2(?:2[1-7]|3[0-8]|4[12]|5[1256]|6\d|7[1-3]|8[1-5])\d{4}"
  ++ en "fixedLine"
  ++ st "mobile" []
  ++ em "possibleLengths" [("national", "7")]
  ++ tx "exampleNumber" "9911234"
  ++ tx "nationalNumberPattern" "(?:36|5[1-389]|9\d)\d{5}"
  ++ en "mobile"
  ++ st "tollFree" []
  ++ em "possibleLengths" [("national", "7")]
  ++ tx "exampleNumber" "8001234"
  ++ tx "nationalNumberPattern" "800\d{4}"
  ++ en "tollFree"
  ++ st "voip" []
  ++ em "possibleLengths" [("national", "7")]
  ++ tx "exampleNumber" "3401234"
  ++ tx "nationalNumberPattern" "(?:3[3-5]|4[356])\d{5}"
  ++ en "voip"
  ++ en "territory".

Definition ev_51 : list event :=
  st "territory" [("id", "CW"); ("mainCountryForCode", "true"); ("countryCode", "599"); ("leadingDigits", "[69]"); ("internationalPrefix", "00")]
  ++ st "availableFormats" []
  ++ st "numberFormat" [("pattern", "(\d{3})(\d{4})")]
  ++ tx "leadingDigits" "[3467]"
  ++ tx "format" "$1 $2"
  ++ en "numberFormat"
  ++ st "numberFormat" [("pattern", "(\d)(\d{3})(\d{4})")]
  ++ tx "leadingDigits" "9[4-8]"
  ++ tx "format" "$1 $2 $3"
  ++ en "numberFormat"
  ++ en "availableFormats"
  ++ st "generalDesc" []
  ++ tx "nationalNumberPattern" "(?:[34]1|60|(?:7|9\d)\d)\d{5}"
  ++ en "generalDesc"
  ++ st "fixedLine" []
  ++ em "possibleLengths" [("national", "7,8")]
  ++ tx "exampleNumber" "94351234"
  ++ tx "nationalNumberPattern" "9(?:4(?:3[0-5]|4[14]|6\d)|50\d|7(?:2[014]|3[02-9]|4[4-9]|6[357]|77|8[7-9])|8(?:3[39]|[46]\d|7[01]|8[57-9]))\d{4}"
  ++ en "fixedLine"
  ++ st "mobile" []
  ++ em "possibleLengths" [("national", "7,8")]
  ++ tx "exampleNumber" "95181234"
  ++ tx "nationalNumberPattern" "953[01]\d{4}|9(?:5[12467]|6[5-9])\d{5}"
  ++ en "mobile"
  ++ st "pager" []
  ++ em "possibleLengths" [("national", "8")]
  ++ tx "exampleNumber" "95581234"
  ++ tx "nationalNumberPattern" "955\d{5}"
  ++ en "pager"
  ++ st "sharedCost" []
  ++ em "possibleLengths" [("national", "7")]
  ++ tx "exampleNumber" "6001234"
  ++ tx "nationalNumberPattern" "60[0-2]\d{4}"
  ++ en "sharedCost"
  ++ en "territory".

Definition ev_52 : list event :=
  st "territory" [("id", "CX"); ("countryCode", "61"); ("preferredInternationalPrefix", "0011"); ("internationalPrefix", "001[14-689]|14(?:1[14]|34|4[17]|[56]6|7[47]|88)0011"); ("nationalPrefix", "0"); ("nationalPrefixForParsing", "([59]\d{7})$|0"); ("nationalPrefixTransformRule", "8$1")]
  ++ st "generalDesc" []
  ++ tx "nationalNumberPattern" "1(?:[0-79]\d{8}(?:\d{2})?|8[0-24-9]\d{7})|[148]\d{8}|1\d{5,7}"
  ++ en "generalDesc"
  ++ st "fixedLine" []
  ++ em "possibleLengths" [("national", "9"); ("localOnly", "8")]
  ++ tx "exampleNumber" "891641234"
  ++ tx "nationalNumberPattern" "8(?:51(?:0(?:01|30|59|88)|1(?:17|46|75)|2(?:22|35))|91(?:00[6-9]|1(?:[28]1|49|78)|2(?:09|63)|3(?:12|26|75)|4(?:56|97)|64\d|7(?:0[01]|1[0-2])|958))\d{3}"
  ++ en "fixedLine"
  ++ st "mobile" []
  ++ em "possibleLengths" [("national", "9")]
  ++ tx "exampleNumber" "412345678"
  ++ tx "nationalNumberPattern" "4(?:79[01]|83[0-36-9]|95[0-3])\d{5}|4(?:[0-36]\d|4[047-9]|[58][0-24-9]|7[02-8]|9[0-47-9])\d{6}"
  ++ en "mobile"
  ++ st "tollFree" []
  ++ em "possibleLengths" [("national", "7,10")]
  ++ tx "exampleNumber" "1800123456"
  ++ tx "nationalNumberPattern" "180(?:0\d{3}|2)\d{3}"
  ++ en "tollFree"
  ++ st "premiumRate" []
  ++ em "possibleLengths" [("national", "10")]
  ++ tx "exampleNumber" "1900123456"
  ++ tx "nationalNumberPattern" "190[0-26]\d{6}"
  ++ en "premiumRate"
  ++ st "sharedCost" []
  ++ em "possibleLengths" [("national", "6,8,10,12")]
  ++ tx "exampleNumber" "1300123456"
  ++ tx "nationalNumberPattern" "13(?:00\d{6}(?:\d{2})?|45[0-4]\d{3})|13\d{4}"
  ++ en "sharedCost"
  ++ st "voip" []
  ++ em "possibleLengths" [("national", "9")]
  ++ tx "exampleNumber" "147101234"
  ++ tx "nationalNumberPattern" "14(?:5(?:1[0458]|[23][458])|71\d)\d{4}"
  ++ en "voip"
  ++ en "territory".

Definition ev_53 : list event :=
  st "territory" [("id", "CY"); ("countryCode", "357"); ("internationalPrefix", "00"); ("mobileNumberPortableRegion", "true")]
  ++ st "availableFormats" []
  ++ st "numberFormat" [("pattern", "(\d{2})(\d{6})")]
  ++ tx "leadingDigits" "[257-9]"
  ++ tx "format" "$1 $2"
  ++ en "numberFormat"
  ++ en "availableFormats"
  ++ st "generalDesc" []
  ++ tx "nationalNumberPattern" "(?:[279]\d|[58]0)\d{6}"
  ++ en "generalDesc"
  ++ st "fixedLine" []
  ++ em "possibleLengths" [("national", "8")]
  ++ tx "exampleNumber" "22345678"
  ++ tx "nationalNumberPattern" "2[2-6]\d{6}"
  ++ en "fixedLine"
  ++ st "mobile" []
  ++ em "possibleLengths" [("national", "8")]
  ++ tx "exampleNumber" "96123456"
  ++ tx "nationalNumberPattern" "9(?:10|[4-79]\d)\d{5}"
  ++ en "mobile"
  ++ st "tollFree" []
  ++ em "possibleLengths" [("national", "8")]
  ++ tx "exampleNumber" "80001234"
  ++ tx "nationalNumberPattern" "800\d{5}"
  ++ en "tollFree"
  ++ st "premiumRate" []
  ++ em "possibleLengths" [("national", "8")]
  ++ tx "exampleNumber" "90012345"
  ++ tx "nationalNumberPattern" "90[09]\d{5}"
  ++ en "premiumRate"
  ++ st "sharedCost" []
  ++ em "possibleLengths" [("national", "8")]
  ++ tx "exampleNumber" "80112345"
  ++ tx "nationalNumberPattern" "80[1-9]\d{5}"
  ++ en "sharedCost"
  ++ st "personalNumber" []
  ++ em "possibleLengths" [("national", "8")]
  ++ tx "exampleNumber" "70012345"
  ++ tx "nationalNumberPattern" "700\d{5}"
  ++ en "personalNumber"
  ++ st "uan" []
  ++ em "possibleLengths" [("national", "8")]
  ++ tx "exampleNumber" "77123456"
  ++ tx "nationalNumberPattern" "(?:50|77)\d{6}"
  ++ en "uan"
  ++ en "territory".

Definition ev_54 : list event :=
  st "territory" [("id", "CZ"); ("countryCode", "420"); ("internationalPrefix", "00"); ("mobileNumberPortableRegion", "true")]
  ++ st "availableFormats" []
  ++ st "numberFormat" [("pattern", "(\d{3})(\d{3})(\d{3})")]
  ++ tx "leadingDigits" "[2-8]|9[015-7]"
  ++ tx "format" "$1 $2 $3"
  ++ en "numberFormat"
  ++ st "numberFormat" [("pattern", "(\d{2})(\d{3})(\d{3})(\d{2})")]
  ++ tx "leadingDigits" "96"
  ++ tx "format" "$1 $2 $3 $4"
  ++ en "numberFormat"
  ++ st "numberFormat" [("pattern", "(\d{2})(\d{3})(\d{3})(\d{3})")]
  ++ tx "leadingDigits" "9"
  ++ tx "format" "$1 $2 $3 $4"
  ++ en "numberFormat"
  ++ st "numberFormat" [("pattern", "(\d{3})(\d{3})(\d{3})(\d{3})")]
  ++ tx "leadingDigits" "9"
  ++ tx "format" "$1 $2 $3 $4"
  ++ en "numberFormat"
  ++ en "availableFormats"
  ++ st "generalDesc" []
  ++ tx "nationalNumberPattern" "(?:[2-578]\d|60)\d{7}|9\d{8,11}"
  ++ en "generalDesc"
  ++ st "fixedLine" []
  ++ em "possibleLengths" [("national", "9")]
  ++ tx "exampleNumber" "212345678"
  ++ tx "nationalNumberPattern" "(?:2\d|3[1257-9]|4[16-9]|5[13-9])\d{7}"
  ++ en "fixedLine"
  ++ st "mobile" []
  ++ em "possibleLengths" [("national", "9")]
  ++ tx "exampleNumber" "601123456"
  ++ tx "nationalNumberPattern" "7060\d{5}|(?:60[1-8]|7(?:0[2-5]|19|[2379]\d))\d{6}"
  ++ en "mobile"
  ++ st "tollFree" []
  ++ em "possibleLengths" [("national", "9")]
  ++ tx "exampleNumber" "800123456"
  ++ tx "nationalNumberPattern" "800\d{6}"
  ++ en "tollFree"
  ++ st "premiumRate" []
  ++ em "possibleLengths" [("national", "9")]
  ++ tx "exampleNumber" "900123456"
  ++ tx "nationalNumberPattern" "9(?:0[05689]|76)\d{6}"
  ++ en "premiumRate"
  ++ st "sharedCost" []
  ++ em "possibleLengths" [("national", "9")]
  ++ tx "exampleNumber" "811234567"
  ++ tx "nationalNumberPattern" "8[134]\d{7}"
  ++ en "sharedCost"
  ++ st "personalNumber" []
  ++ em "possibleLengths" [("national", "9")]
  ++ tx "exampleNumber" "700123456"
  ++ tx "nationalNumberPattern" "70[01]\d{6}"
  ++ en "personalNumber"
  ++ st "voip" []
  ++ em "possibleLengths" [("national", "9")]
  ++ tx "exampleNumber" "910123456"
  ++ tx "nationalNumberPattern" "9[17]0\d{6}"
  ++ en "voip"
  ++ st "uan" []
  ++ em "possibleLengths" [("national", "9")]
  ++ tx "exampleNumber" "972123456"
  ++ tx "nationalNumberPattern" "9(?:5\d|7[2-4])\d{6}"
  ++ en "uan"
  ++ st "voicemail" []
  ++ em "possibleLengths" [("national", "[9-12]")]
  ++ tx "exampleNumber" "93123456789"
  ++ tx "nationalNumberPattern" "9(?:3\d{9}|6\d{7,10})"
  ++ en "voicemail"
  ++ en "territory".

Definition ev_55 : list event :=
  st "territory" [("id", "DE"); ("countryCode", "49"); ("internationalPrefix", "00"); ("nationalPrefix", "0"); ("mobileNumberPortableRegion", "true")]
  ++ st "availableFormats" []
  ++ st "numberFormat" [("pattern", "(\d{2})(\d{3,13})"); ("nationalPrefixFormattingRule", "$NP$FG")]
  ++ tx "leadingDigits" "3[02]|40|[68]9"
  ++ tx "format" "$1 $2"
  ++ en "numberFormat"
  ++ st "numberFormat" [("pattern", "(\d{6})")]
  ++ tx "leadingDigits" "227"
  ++ tx "leadingDigits" "2277"
  ++ tx "format" "$1"
  ++ tx "intlFormat" "NA"
  ++ en "numberFormat"
  ++ st "numberFormat" [("pattern", "(\d{3})(\d{3,12})"); ("nationalPrefixFormattingRule", "$NP$FG")]
  ++ tx "leadingDigits" "2(?:0[1-389]|1[124]|2[18]|3[14])|3(?:[35-9][15]|4[015])|906|(?:2[4-9]|4[2-9]|[579][1-9]|[68][1-8])1"
  ++ tx "leadingDigits" "2(?:0[1-389]|12[0-8])|3(?:[35-9][15]|4[015])|906|2(?:[13][14]|2[18])|(?:2[4-9]|4[2-9]|[579][1-9]|[68][1-8])1"
  ++ tx "format" "$1 $2"
  ++ en "numberFormat"
  ++ st "numberFormat" [("pattern", "(\d{4})(\d{2,11})"); ("nationalPrefixFormattingRule", "$NP$FG")]
  ++ tx "leadingDigits" "[24-6]|3(?:[3569][02-46-9]|4[2-4679]|7[2-467]|8[2-46-8])|70[2-8]|8(?:0[2-9]|[1-8])|90[7-9]|[79][1-9]"
  ++ tx "leadingDigits" "[24-6]|3(?:3(?:0[1-467]|2[127-9]|3[124578]|7[1257-9]|8[1256]|9[145])|4(?:2[135]|4[13578]|9[1346])|5(?:0[14]|2[1-3589]|6[1-4]|7[13468]|8[13568])|6(?:2[1-489]|3[124-6]|6[13]|7[12579]|8[1-356]|9[135])|7(?:2[1-7]|4[145]|6[1-5]|7[1-4])|8(?:21|3[1468]|6|7[1467]|8[136])|9(?:0[12479]|2[1358]|4[134679]|6[1-9]|7[136]|8[147]|9[1468]))|70[2-8]|8(?:0[2-9]|[1-8])|90[7-9]|[79][1-9]|3[68]4[1347]|3(?:47|60)[1356]|3(?:3[46]|46|5[49])[1246]|3[4579]3[1357]"
  ++ tx "format" "$1 $2"
  ++ en "numberFormat"
  ++ st "numberFormat" [("pattern", "(\d{3})(\d{4})"); ("nationalPrefixFormattingRule", "$NP$FG")]
  ++ tx "leadingDigits" "138"
  ++ tx "format" "$1 $2"
  ++ en "numberFormat"
  ++ st "numberFormat" [("pattern", "(\d{5})(\d{2,10})"); ("nationalPrefixFormattingRule", "$NP$FG")]
  ++ tx "leadingDigits" "3"
  ++ tx "format" "$1 $2"
  ++ en "numberFormat"
  ++ st "numberFormat" [("pattern", "(\d{3})(\d{5,11})"); ("nationalPrefixFormattingRule", "$NP$FG")]
  ++ tx "leadingDigits" "181"
  ++ tx "format" "$1 $2"
  ++ en "numberFormat"
  ++ st "numberFormat" [("pattern", "(\d{3})(\d)(\d{4,10})"); ("nationalPrefixFormattingRule", "$NP$FG")]
  ++ tx "leadingDigits" "1(?:3|80)|9"
  ++ tx "format" "$1 $2 $3"
  ++ en "numberFormat"
  ++ st "numberFormat" [("pattern", "(\d{3})(\d{7,8})"); ("nationalPrefixFormattingRule", "$NP$FG")]
  ++ tx "leadingDigits" "1[67]"
  ++ tx "format" "$1 $2"
  ++ en "numberFormat"
  ++ st "numberFormat" [("pattern", "(\d{3})(\d{7,12})"); ("nationalPrefixFormattingRule", "$NP$FG")]
  ++ tx "leadingDigits" "8"
  ++ tx "format" "$1 $2"
  ++ en "numberFormat"
  ++ st "numberFormat" [("pattern", "(\d{5})(\d{6})"); ("nationalPrefixFormattingRule", "$NP$FG")]
  ++ tx "leadingDigits" "185"
  ++ tx "leadingDigits" "1850"
  ++ tx "leadingDigits" "18500"
  ++ tx "format" "$1 $2"
  ++ en "numberFormat"
  ++ st "numberFormat" [("pattern", "(\d{3})(\d{4})(\d{4})"); ("nationalPrefixFormattingRule", "$NP$FG")]
  ++ tx "leadingDigits" "7"
  ++ tx "format" "$1 $2 $3"
  ++ en "numberFormat"
  ++ st "numberFormat" [("pattern", "(\d{4})(\d{7})"); ("nationalPrefixFormattingRule", "$NP$FG")]
  ++ tx "leadingDigits" "18[68]"
  ++ tx "format" "$1 $2"
  ++ en "numberFormat"
  ++ st "numberFormat" [("pattern", "(\d{4})(\d{7})"); ("nationalPrefixFormattingRule", "$NP$FG")]
  ++ tx "leadingDigits" "15[1279]"
  ++ tx "format" "$1 $2"
  ++ en "numberFormat"
  ++ st "numberFormat" [("pattern", "(\d{5})(\d{6})"); ("nationalPrefixFormattingRule", "$NP$FG")]
  ++ tx "leadingDigits" "15[03568]"
  ++ tx "leadingDigits" "15(?:[0568]|3[13])"
  ++ tx "format" "$1 $2"
  ++ en "numberFormat"
  ++ st "numberFormat" [("pattern", "(\d{3})(\d{8})"); ("nationalPrefixFormattingRule", "$NP$FG")]
  ++ tx "leadingDigits" "18"
  ++ tx "format" "$1 $2"
  ++ en "numberFormat"
  ++ st "numberFormat" [("pattern", "(\d{3})(\d{2})(\d{7,8})"); ("nationalPrefixFormattingRule", "$NP$FG")]
  ++ tx "leadingDigits" "1(?:6[023]|7)"
  ++ tx "format" "$1 $2 $3"
  ++ en "numberFormat"
  ++ st "numberFormat" [("pattern", "(\d{4})(\d{2})(\d{7})"); ("nationalPrefixFormattingRule", "$NP$FG")]
  ++ tx "leadingDigits" "15[279]"
  ++ tx "format" "$1 $2 $3"
  ++ en "numberFormat"
  ++ st "numberFormat" [("pattern", "(\d{3})(\d{2})(\d{8})"); ("nationalPrefixFormattingRule", "$NP$FG")]
  ++ tx "leadingDigits" "15"
  ++ tx "format" "$1 $2 $3"
  ++ en "numberFormat"
  ++ en "availableFormats"
  ++ st "generalDesc" []
  ++ tx "nationalNumberPattern" "[2579]\d{5,14}|49(?:[34]0|69|8\d)\d\d?|49(?:37|49|60|7[089]|9\d)\d{1,3}|49(?:2[024-9]|3[2-689]|7[1-7])\d{1,8}|(?:1|[368]\d|4[0-8])\d{3,13}|49(?:[015]\d|2[13]|31|[46][1-8])\d{1,9}"
  ++ en "generalDesc"
  ++ st "fixedLine" []
  ++ em "possibleLengths" [("national", "[5-15]"); ("localOnly", "[2-4]")]
  ++ tx "exampleNumber" "30123456"
  ++ tx "nationalNumberPattern" "32\d{9,11}|49[1-6]\d{10}|322\d{6}|49[0-7]\d{3,9}|(?:[34]0|[68]9)\d{3,13}|(?:2(?:0[1-689]|[1-3569]\d|4[0-8]|7[1-7]|8[0-7])|3(?:[3569]\d|4[0-79]|7[1-7]|8[1-8])|4(?:1[02-9]|[2-48]\d|5[0-6]|6[0-8]|7[0-79])|5(?:0[2-8]|[124-6]\d|[38][0-8]|[79][0-7])|6(?:0[02-9]|[1-358]\d|[47][0-8]|6[1-9])|7(?:0[2-8]|1[1-9]|[27][0-7]|3\d|[4-6][0-8]|8[0-5]|9[013-7])|8(?:0[2-9]|1[0-79]|2\d|3[0-46-9]|4[0-6]|5[013-9]|6[1-8]|7[0-8]|8[0-24-6])|9(?:0[6-9]|[1-4]\d|[589][0-7]|6[0-8]|7[0-467]))\d{3,12}"
  ++ en "fixedLine"
  ++ st "mobile" []
  ++ em "possibleLengths" [("national", "10,11")]
  ++ tx "exampleNumber" "15123456789"
  ++ tx "nationalNumberPattern" "1(?:6[023]|7\d)\d{7,8}|15(?:[0-25-9]\d\d|3(?:10|33))\d{6}"
  ++ en "mobile"
  ++ st "pager" []
  ++ em "possibleLengths" [("national", "[4-14]")]
  ++ tx "exampleNumber" "16412345"
  ++ tx "nationalNumberPattern" "16(?:4\d{1,10}|[89]\d{1,11})"
  ++ en "pager"
  ++ st "tollFree" []
  ++ em "possibleLengths" [("national", "[10-15]")]
  ++ tx "exampleNumber" "8001234567890"
  ++ tx "nationalNumberPattern" "800\d{7,12}"
  ++ en "tollFree"
  ++ st "premiumRate" []
  ++ em "possibleLengths" [("national", "10,11")]
  ++ tx "exampleNumber" "9001234567"
  ++ tx "nationalNumberPattern" "(?:137[7-9]|900(?:[135]|9\d))\d{6}"
  ++ en "premiumRate"
  ++ st "sharedCost" []
  ++ em "possibleLengths" [("national", "[7-14]")]
  ++ tx "exampleNumber" "18012345"
  ++ tx "nationalNumberPattern" "180\d{5,11}|13(?:7[1-6]\d\d|8)\d{4}"
  ++ en "sharedCost"
  ++ st "personalNumber" []
  ++ em "possibleLengths" [("national", "11")]
  ++ tx "exampleNumber" "70012345678"
  ++ tx "nationalNumberPattern" "700\d{8}"
  ++ en "personalNumber"
  ++ st "uan" []
  ++ em "possibleLengths" [("national", "[8-14]")]
  ++ tx "exampleNumber" "18500123456"
  ++ tx "nationalNumberPattern" "18(?:1\d{5,11}|[2-9]\d{8})"
  ++ en "uan"
  ++ st "voicemail" []
  ++ em "possibleLengths" [("national", "12,13")]
  ++ tx "exampleNumber" "177991234567"
  ++ tx "nationalNumberPattern" "1(?:6(?:013|255|399)|7(?:(?:[015]1|[69]3)3|[2-4]55|[78]99))\d{7,8}|15(?:(?:[03-68]00|113)\d|2\d55|7\d99|9\d33)\d{7}"
  ++ en "voicemail"
  ++ en "territory".

Definition ev_56 : list event :=
  st "territory" [("id", "DJ"); ("countryCode", "253"); ("internationalPrefix", "00")]
  ++ st "availableFormats" []
  ++ st "numberFormat" [("pattern", "(\d{2})(\d{2})(\d{2})(\d{2})")]
  ++ tx "leadingDigits" "[27]"
  ++ tx "format" "$1 $2 $3 $4"
  ++ en "numberFormat"
  ++ en "availableFormats"
  ++ st "generalDesc" []
  ++ tx "nationalNumberPattern" "(?:2\d|77)\d{6}"
  ++ en "generalDesc"
  ++ st "fixedLine" []
  ++ em "possibleLengths" [("national", "8")]
  ++ tx "exampleNumber" "21360003"
  ++ tx "nationalNumberPattern" "2(?:1[2-5]|7[45])\d{5}"
  ++ en "fixedLine"
  ++ st "mobile" []
  ++ em "possibleLengths" [("national", "8")]
  ++ tx "exampleNumber" "77831001"
  ++ tx "nationalNumberPattern" "77\d{6}"
  ++ en "mobile"
  ++ en "territory".

Definition ev_57 : list event :=
  st "territory" [("id", "DK"); ("countryCode", "45"); ("internationalPrefix", "00"); ("mobileNumberPortableRegion", "true")]
  ++ st "availableFormats" []
  ++ st "numberFormat" [("pattern", "(\d{2})(\d{2})(\d{2})(\d{2})")]
  ++ tx "leadingDigits" "[2-9]"
  ++ tx "format" "$1 $2 $3 $4"
  ++ en "numberFormat"
  ++ en "availableFormats"
  ++ st "generalDesc" []
  ++ tx "nationalNumberPattern" "[2-9]\d{7}"
  ++ en "generalDesc"
  ++ st "fixedLine" []
  ++ em "possibleLengths" [("national", "8")]
  ++ tx "exampleNumber" "32123456"
  ++ tx "nationalNumberPattern" "(?:2(?:[0-59][1-9]|[6-8]\d)|3(?:[0-3][1-9]|4[13]|5[1-58]|6[1347-9]|7\d|8[1-8]|9[1-79])|4(?:[0-25][1-9]|[34][2-9]|6[13-579]|7[13579]|8[1-47]|9[127])|5(?:[0-36][1-9]|4[146-9]|5[3-57-9]|7[568]|8[1-358]|9[1-69])|6(?:[0135][1-9]|2[1-68]|4[2-8]|6[1689]|[78]\d|9[15689])|7(?:[0-69][1-9]|7[3-9]|8[147])|8(?:[16-9][1-9]|2[1-58])|9(?:[1-47-9][1-9]|6\d))\d{5}"
  ++ en "fixedLine"
  ++ st "mobile" []
  ++ em "possibleLengths" [("national", "8")]
  ++ tx "exampleNumber" "34412345"
  ++ tx "nationalNumberPattern" "(?:2[6-8]|37|6[78]|96)\d{6}|(?:2[0-59]|3[0-689]|[457]\d|6[0-69]|8[126-9]|9[1-47-9])[1-9]\d{5}"
  ++ en "mobile"
  ++ st "tollFree" []
  ++ em "possibleLengths" [("national", "8")]
  ++ tx "exampleNumber" "80123456"
  ++ tx "nationalNumberPattern" "80\d{6}"
  ++ en "tollFree"
  ++ st "premiumRate" []
  ++ em "possibleLengths" [("national", "8")]
  ++ tx "exampleNumber" "90123456"
  ++ tx "nationalNumberPattern" "90\d{6}"
  ++ en "premiumRate"
  ++ en "territory".

Definition ev_58 : list event :=
  st "territory" [("id", "DM"); ("countryCode", "1"); ("leadingDigits", "767"); ("internationalPrefix", "011"); ("nationalPrefix", "1"); ("nationalPrefixForParsing", "([2-7]\d{6})$|1"); ("nationalPrefixTransformRule", "767$1"); ("mobileNumberPortableRegion", "true")]
  ++ st "generalDesc" []
  ++ tx "nationalNumberPattern" "(?:[58]\d\d|767|900)\d{7}"
  ++ en "generalDesc"
  ++ st "fixedLine" []
  ++ em "possibleLengths" [("national", "10"); ("localOnly", "7")]
  ++ tx "exampleNumber" "7674201234"
  ++ tx "nationalNumberPattern" "767(?:2(?:55|66)|4(?:2[01]|4[0-25-9])|50[0-4])\d{4}"
  ++ en "fixedLine"
  ++ st "mobile" []
  ++ em "possibleLengths" [("national", "10"); ("localOnly", "7")]
  ++ tx "exampleNumber" "7672251234"
  ++ tx "nationalNumberPattern" "767(?:2(?:[2-4689]5|7[5-7])|31[5-7]|61[1-8]|70[1-6])\d{4}"
  ++ en "mobile"
  ++ st "tollFree" []
  ++ em "possibleLengths" [("national", "10")]
  ++ tx "exampleNumber" "8002123456"
  ++ tx "nationalNumberPattern" "8(?:00|33|44|55|66|77|88)[2-9]\d{6}"
  ++ en "tollFree"
  ++ st "premiumRate" []
  ++ em "possibleLengths" [("national", "10")]
  ++ tx "exampleNumber" "9002123456"
  ++ tx "nationalNumberPattern" "900[2-9]\d{6}"
  ++ en "premiumRate"
  ++ st "personalNumber" []
  ++ em "possibleLengths" [("national", "10")]
  ++ tx "exampleNumber" "5002345678"
  ++ tx "nationalNumberPattern" "52(?:3(?:[2-46-9][02-9]\d|5(?:[02-46-9]\d|5[0-46-9]))|4(?:[2-478][02-9]\d|5(?:[034]\d|2[024-9]|5[0-46-9])|6(?:0[1-9]|[2-9]\d)|9(?:[05-9]\d|2[0-5]|49)))\d{4}|52[34][2-9]1[02-9]\d{4}|5(?:00|2[125-9]|3[23]|44|66|77|88)[2-9]\d{6}"
  ++ en "personalNumber"
  ++ en "territory".

Definition ev_59 : list event :=
  st "territory" [("id", "DO"); ("countryCode", "1"); ("leadingDigits", "8001|8[024]9"); ("internationalPrefix", "011"); ("nationalPrefix", "1"); ("mobileNumberPortableRegion", "true")]
  ++ st "generalDesc" []
  ++ tx "nationalNumberPattern" "(?:[58]\d\d|900)\d{7}"
  ++ en "generalDesc"
  ++ st "fixedLine" []
  ++ em "possibleLengths" [("national", "10"); ("localOnly", "7")]
  ++ tx "exampleNumber" "8092345678"
  ++ tx "nationalNumberPattern" "8(?:[04]9[2-9]\d\d|29(?:2(?:[0-59]\d|6[04-9]|7[0-27]|8[0237-9])|3(?:[0-35-9]\d|4[7-9])|[45]\d\d|6(?:[0-27-9]\d|[3-5][1-9]|6[0135-8])|7(?:0[013-9]|[1-37]\d|4[1-35689]|5[1-4689]|6[1-57-9]|8[1-79]|9[1-8])|8(?:0[146-9]|1[0-48]|[248]\d|3[1-79]|5[01589]|6[013-68]|7[124-8]|9[0-8])|9(?:[0-24]\d|3[02-46-9]|5[0-79]|60|7[0169]|8[57-9]|9[02-9])))\d{4}"
  ++ en "fixedLine"
  ++ st "mobile" []
  ++ em "possibleLengths" [("national", "10"); ("localOnly", "7")]
  ++ tx "exampleNumber" "8092345678"
  ++ tx "nationalNumberPattern" "8[024]9[2-9]\d{6}"
  ++ en "mobile"
  ++ st "tollFree" []
  ++ em "possibleLengths" [("national", "10")]
  ++ tx "exampleNumber" "8002123456"
  ++ tx "nationalNumberPattern" "800(?:14|[2-9]\d)\d{5}|8[024]9[01]\d{6}|8(?:33|44|55|66|77|88)[2-9]\d{6}"
  ++ en "tollFree"
  ++ st "premiumRate" []
  ++ em "possibleLengths" [("national", "10")]
  ++ tx "exampleNumber" "9002123456"
  ++ tx "nationalNumberPattern" "900[2-9]\d{6}"
  ++ en "premiumRate"
  ++ st "personalNumber" []
  ++ em "possibleLengths" [("national", "10")]
  ++ tx "exampleNumber" "5002345678"
  ++ tx "nationalNumberPattern" "52(?:3(?:[2-46-9][02-9]\d|5(?:[02-46-9]\d|5[0-46-9]))|4(?:[2-478][02-9]\d|5(?:[034]\d|2[024-9]|5[0-46-9])|6(?:0[1-9]|[2-9]\d)|9(?:[05-9]\d|2[0-5]|49)))\d{4}|52[34][2-9]1[02-9]\d{4}|5(?:00|2[125-9]|3[23]|44|66|77|88)[2-9]\d{6}"
  ++ en "personalNumber"
  ++ en "territory".

Definition ev_60 : list event :=
  st "territory" [("id", "DZ"); ("countryCode", "213"); ("internationalPrefix", "00"); ("nationalPrefix", "0")]
  ++ st "availableFormats" []
  ++ st "numberFormat" [("pattern", "(\d{2})(\d{2})(\d{2})(\d{2})"); ("nationalPrefixFormattingRule", "$NP$FG")]
  ++ tx "leadingDigits" "[1-4]"
  ++ tx "format" "$1 $2 $3 $4"
  ++ en "numberFormat"
  ++ st "numberFormat" [("pattern", "(\d{2})(\d{3})(\d{2})(\d{2})"); ("nationalPrefixFormattingRule", "$NP$FG")]
  ++ tx "leadingDigits" "9"
  ++ tx "format" "$1 $2 $3 $4"
  ++ en "numberFormat"
  ++ st "numberFormat" [("pattern", "(\d{3})(\d{2})(\d{2})(\d{2})"); ("nationalPrefixFormattingRule", "$NP$FG")]
  ++ tx "leadingDigits" "[5-8]"
  ++ tx "format" "$1 $2 $3 $4"
  ++ en "numberFormat"
  ++ en "availableFormats"
  ++ st "generalDesc" []
  ++ tx "nationalNumberPattern" "(?:[1-4]|[5-79]\d|80)\d{7}"
  ++ en "generalDesc"
  ++ st "fixedLine" []
  ++ em "possibleLengths" [("national", "8,9")]
  ++ tx "exampleNumber" "12345678"
  ++ tx "nationalNumberPattern" "9619\d{5}|(?:[1-3]\d|4[013-689])\d{6}"
  ++ en "fixedLine"
  ++ st "mobile" []
  ++ em "possibleLengths" [("national", "9")]
  ++ tx "exampleNumber" "551234567"
  ++ tx "nationalNumberPattern" "5(?:4[0-29]|6[0-4])\d{6}|(?:55|6\d|7[7-9])\d{7}"
  ++ en "mobile"
  ++ st "tollFree" []
  ++ em "possibleLengths" [("national", "9")]
  ++ tx "exampleNumber" "800123456"
  ++ tx "nationalNumberPattern" "800\d{6}"
  ++ en "tollFree"
  ++ st "premiumRate" []
  ++ em "possibleLengths" [("national", "9")]
  ++ tx "exampleNumber" "808123456"
  ++ tx "nationalNumberPattern" "80[3-689]1\d{5}"
  ++ en "premiumRate"
  ++ st "sharedCost" []
  ++ em "possibleLengths" [("national", "9")]
  ++ tx "exampleNumber" "801123456"
  ++ tx "nationalNumberPattern" "80[12]1\d{5}"
  ++ en "sharedCost"
  ++ st "voip" []
  ++ em "possibleLengths" [("national", "9")]
  ++ tx "exampleNumber" "983123456"
  ++ tx "nationalNumberPattern" "98[23]\d{6}"
  ++ en "voip"
  ++ en "territory".

Definition ev_61 : list event :=
  st "territory" [("id", "EC"); ("countryCode", "593"); ("internationalPrefix", "00"); ("nationalPrefix", "0"); ("mobileNumberPortableRegion", "true")]
  ++ st "availableFormats" []
  ++ st "numberFormat" [("pattern", "(\d{3})(\d{4})")]
  ++ tx "leadingDigits" "[2-7]"
  ++ tx "format" "$1-$2"
  ++ tx "intlFormat" "NA"
  ++ en "numberFormat"
  ++ st "numberFormat" [("pattern", "(\d)(\d{3})(\d{4})"); ("nationalPrefixFormattingRule", "($NP$FG)")]
  ++ tx "leadingDigits" "[2-7]"
  ++ tx "format" "$1 $2-$3"
  ++ tx "intlFormat" "$1-$2-$3"
  ++ en "numberFormat"
  ++ st "numberFormat" [("pattern", "(\d{2})(\d{3})(\d{4})"); ("nationalPrefixFormattingRule", "$NP$FG")]
  ++ tx "leadingDigits" "9"
  ++ tx "format" "$1 $2 $3"
  ++ en "numberFormat"
  ++ st "numberFormat" [("pattern", "(\d{4})(\d{3})(\d{3,4})")]
  ++ tx "leadingDigits" "1"
  ++ tx "format" "$1 $2 $3"
  ++ en "numberFormat"
  ++ en "availableFormats"
  ++ st "generalDesc" []
  ++ tx "nationalNumberPattern" "1\d{9,10}|(?:[2-7]|9\d)\d{7}"
  ++ en "generalDesc"
  ++ st "fixedLine" []
  ++ em "possibleLengths" [("national", "8"); ("localOnly", "7")]
  ++ tx "exampleNumber" "22123456"
  ++ tx "nationalNumberPattern" "[2-7][2-7]\d{6}"
  ++ en "fixedLine"
  ++ st "mobile" []
  ++ em "possibleLengths" [("national", "9")]
  ++ tx "exampleNumber" "991234567"
  ++ tx "nationalNumberPattern" "964[0-2]\d{5}|9(?:39|[57][89]|6[0-36-9]|[89]\d)\d{6}"
  ++ en "mobile"
  ++ st "tollFree" []
  ++ em "possibleLengths" [("national", "10,11")]
  ++ tx "exampleNumber" "18001234567"
  ++ tx "nationalNumberPattern" "1800\d{7}|1[78]00\d{6}"
  ++ en "tollFree"
  ++ st "voip" []
  ++ em "possibleLengths" [("national", "8")]
  ++ tx "exampleNumber" "28901234"
  ++ tx "nationalNumberPattern" "[2-7]890\d{4}"
  ++ en "voip"
  ++ en "territory".

Definition ev_62 : list event :=
  st "territory" [("id", "EE"); ("countryCode", "372"); ("internationalPrefix", "00"); ("mobileNumberPortableRegion", "true")]
  ++ st "availableFormats" []
  ++ st "numberFormat" [("pattern", "(\d{3})(\d{4})")]
  ++ tx "leadingDigits" "[369]|4[3-8]|5(?:[0-2]|5[0-478]|6[45])|7[1-9]|88"
  ++ tx "leadingDigits" "[369]|4[3-8]|5(?:[02]|1(?:[0-8]|95)|5[0-478]|6(?:4[0-4]|5[1-589]))|7[1-9]|88"
  ++ tx "format" "$1 $2"
  ++ en "numberFormat"
  ++ st "numberFormat" [("pattern", "(\d{4})(\d{3,4})")]
  ++ tx "leadingDigits" "[45]|8(?:00|[1-49])"
  ++ tx "leadingDigits" "[45]|8(?:00[1-9]|[1-49])"
  ++ tx "format" "$1 $2"
  ++ en "numberFormat"
  ++ st "numberFormat" [("pattern", "(\d{2})(\d{2})(\d{4})")]
  ++ tx "leadingDigits" "7"
  ++ tx "format" "$1 $2 $3"
  ++ en "numberFormat"
  ++ st "numberFormat" [("pattern", "(\d{4})(\d{3})(\d{3})")]
  ++ tx "leadingDigits" "8"
  ++ tx "format" "$1 $2 $3"
  ++ en "numberFormat"
  ++ en "availableFormats"
  ++ st "generalDesc" []
  ++ tx "nationalNumberPattern" "8\d{9}|[4578]\d{7}|(?:[3-8]\d|90)\d{5}"
  ++ en "generalDesc"
  ++ st "noInternationalDialling" []
  ++ em "possibleLengths" [("national", "7")]
  ++ tx "nationalNumberPattern" "800[2-9]\d{3}"
  ++ en "noInternationalDialling"
  ++ st "fixedLine" []
  ++ em "possibleLengths" [("national", "7")]
  ++ tx "exampleNumber" "3212345"
  ++ tx "nationalNumberPattern" "(?:3[23589]|4[3-8]|6\d|7[1-9]|88)\d{5}"
  ++ en "fixedLine"
  ++ st "mobile" []
  ++ em "possibleLengths" [("national", "7,8")]
  ++ tx "exampleNumber" "51234567"
  ++ tx "nationalNumberPattern" "(?:5\d{5}|8(?:1(?:0(?:0(?:00|[178]\d)|[3-9]\d\d)|(?:1(?:0[2-6]|1\d)|[2-79]\d\d)\d)|2(?:0(?:0(?:00|4\d)|(?:19|[2-7]\d)\d)|(?:(?:[124-69]\d|3[5-9])\d|7(?:[0-79]\d|8[013-9])|8(?:[2-6]\d|7[01]))\d)|[349]\d{4}))\d\d|5(?:(?:[02]\d|5[0-478])\d|1(?:[0-8]\d|95)|6(?:4[0-4]|5[1-589]))\d{3}"
  ++ en "mobile"
  ++ st "tollFree" []
  ++ em "possibleLengths" [("national", "7,8,10")]
  ++ tx "exampleNumber" "80012345"
  ++ tx "nationalNumberPattern" "800(?:(?:0\d\d|1)\d|[2-9])\d{3}"
  ++ en "tollFree"
  ++ st "premiumRate" []
  ++ em "possibleLengths" [("national", "7,8")]
  ++ tx "exampleNumber" "9001234"
  ++ tx "nationalNumberPattern" "(?:40\d\d|900)\d{4}"
  ++ en "premiumRate"
  ++ st "personalNumber" []
  ++ em "possibleLengths" [("national", "8")]
  ++ tx "exampleNumber" "70012345"
  ++ tx "nationalNumberPattern" "70[0-2]\d{5}"
  ++ en "personalNumber"
  ++ en "territory".

Definition ev_63 : list event :=
  st "territory" [("id", "EG"); ("countryCode", "20"); ("internationalPrefix", "00"); ("nationalPrefix", "0"); ("mobileNumberPortableRegion", "true")]
  ++ st "availableFormats" []
  ++ st "numberFormat" [("pattern", "(\d)(\d{7,8})"); ("nationalPrefixFormattingRule", "$NP$FG")]
  ++ tx "leadingDigits" "[23]"
  ++ tx "format" "$1 $2"
  ++ en "numberFormat"
  ++ st "numberFormat" [("pattern", "(\d{2})(\d{6,7})"); ("nationalPrefixFormattingRule", "$NP$FG")]
  ++ tx "leadingDigits" "1[35]|[4-6]|8[2468]|9[235-7]"
  ++ tx "format" "$1 $2"
  ++ en "numberFormat"
  ++ st "numberFormat" [("pattern", "(\d{3})(\d{3})(\d{4})"); ("nationalPrefixFormattingRule", "$NP$FG")]
  ++ tx "leadingDigits" "[89]"
  ++ tx "format" "$1 $2 $3"
  ++ en "numberFormat"
  ++ st "numberFormat" [("pattern", "(\d{2})(\d{8})"); ("nationalPrefixFormattingRule", "$NP$FG")]
  ++ tx "leadingDigits" "1"
  ++ tx "format" "$1 $2"
  ++ en "numberFormat"
  ++ en "availableFormats"
  ++ st "generalDesc" []
  ++ tx "nationalNumberPattern" "[189]\d{8,9}|[24-6]\d{8}|[135]\d{7}"
  ++ en "generalDesc"
  ++ st "fixedLine" []
  ++ em "possibleLengths" [("national", "8,9"); ("localOnly", "6,7")]
  ++ tx "exampleNumber" "234567890"
  ++ tx "nationalNumberPattern" "13[23]\d{6}|(?:15|57)\d{6,7}|(?:2\d|3|4[05-8]|5[05]|6[24-689]|8[2468]|9[235-7])\d{7}"
  ++ en "fixedLine"
  ++ st "mobile" []
  ++ em "possibleLengths" [("national", "10")]
  ++ tx "exampleNumber" "1001234567"
  ++ tx "nationalNumberPattern" "1[0-25]\d{8}"
  ++ en "mobile"
  ++ st "tollFree" []
  ++ em "possibleLengths" [("national", "10")]
  ++ tx "exampleNumber" "8001234567"
  ++ tx "nationalNumberPattern" "800\d{7}"
  ++ en "tollFree"
  ++ st "premiumRate" []
  ++ em "possibleLengths" [("national", "10")]
  ++ tx "exampleNumber" "9001234567"
  ++ tx "nationalNumberPattern" "900\d{7}"
  ++ en "premiumRate"
  ++ en "territory".

Definition events_a : list (list event) := [ev_0; ev_1; ev_2; ev_3; ev_4; ev_5; ev_6; ev_7; ev_8; ev_9; ev_10; ev_11; ev_12; ev_13; ev_14; ev_15; ev_16; ev_17; ev_18; ev_19; ev_20; ev_21; ev_22; ev_23; ev_24; ev_25; ev_26; ev_27; ev_28; ev_29; ev_30; ev_31; ev_32; ev_33; ev_34; ev_35; ev_36; ev_37; ev_38; ev_39; ev_40; ev_41; ev_42; ev_43; ev_44; ev_45; ev_46; ev_47; ev_48; ev_49; ev_50; ev_51; ev_52; ev_53; ev_54; ev_55; ev_56; ev_57; ev_58; ev_59; ev_60; ev_61; ev_62; ev_63].
