(** Generated by tools/gen_text.py: the text of /repo/assets/PhoneNumberMetadata.xml,
    part B of F, cut after every territory. *)
From Verif Require Import Base.
Local Open Scope bstr_scope.

Definition text_b : list (list bstr) :=
 [["

    <!-- Cocos (Keeling) Islands (CC) -->
    <!-- Calling code and formatting shared with 'AU' -->
    <!-- References state Cocos Islands have fixed line numbers starting +61 8 9162. -->
    <!-- http://en.wikipedia.org/wiki/List_of_country_calling_codes -->
    <!-- http://en.wikipedia.org/wiki/Telephone_numbers_in_Australia -->
    <!-- https://www.thenumberingsystem.com.au/#/number-register/search -->
    <territory id=""CC"" countryCode=""61"" preferredInternationalPrefix=""0011""
               internationalPrefix=""001[14-689]|14(?:1[14]|34|4[17]|[56]6|7[47]|88)0011""
               nationalPrefix=""0"" nationalPrefixForParsing=""([59]\d{7})$|0""
               nationalPrefixTransformRule=""8$1"">
      <generalDesc>
        <nationalNumberPattern>
          1(?:
            [0-79]\d{8}(?:
              \d{2}
            )?|
            8[0-24-9]\d{7}
          )|
          [148]\d{8}|
          1\d{5,7}
        </nationalNumberPattern>
      </generalDesc>
      <fixedLine>
        <possibleLengths national=""9"" localOnly=""8""/>
        <exampleNumber>891621234</exampleNumber>
        <nationalNumberPattern>
          8(?:
            51(?:
              0(?:
                02|
                31|
                60|
                89
              )|
              1(?:
                18|
                76
              )|
              223
            )|
            91(?:
              0(?:
                1[0-2]|
                29
              )|
              1(?:
                [28]2|
                50|
                79
              )|
              2(?:
                10|
                64
              )|
              3(?:
                [06]8|
                22
              )|
              4[29]8|
              62\d|
              70[23]|
              959
            )
          )\d{3}
        </nationalNumberPattern>
      </fixedLine>
      <!-- Mobile, toll free, premium rate and VOIP copied fr";
   "om Australia. -->
      <mobile>
        <possibleLengths national=""9""/>
";
   "        <exampleNumber>412345678</exampleNumber>
        <nationalNumberPattern>
          4(?:
            79[01]|
            83[0-36-9]|
            95[0-3]
          )\d{5}|
          4(?:
            [0-36]\d|
            4[047-9]|
            [58][0-24-9]|
            7[02-8]|
            9[0-47-9]
          )\d{6}
        </nationalNumberPattern>
      </mobile>
      <tollFree>
        <possibleLengths national=""7,10""/>
        <exampleNumber>1800123456</exampleNumber>
        <nationalNumberPattern>
          180(?:
            0\d{3}|
            2
          )\d{3}
        </nationalNumberPattern>
      </tollFree>
      <premiumRate>
        <possibleLengths national=""10""/>
        <exampleNumber>1900123456</exampleNumber>
        <nationalNumberPattern>190[0-26]\d{6}</nationalNumberPattern>
      </premiumRate>
      <!-- Lo";
   "cal-rate (SmartNumbers) are put here because they are a reverse-charge network,
           although they charge a small lo";
   "cal call connect fee (around 25c). These start with 13
           or 1300. -->
      <sharedCost>
        <possibleLengths national=""6,8,10,12""/>
        <exampleNumber>1300123456</exampleNumber>
        <nationalNumberPattern>
          13(?:
            00\d{6}(?:
              \d{2}
            )?|
            45[0-4]\d{3}
          )|
          13\d{4}
        </nationalNumberPattern>
      </sharedCost>
      <voip>
        <possibleLengths national=""9""/>
        <exampleNumber>147101234</exampleNumber>
        <nationalNumberPattern>
          14(?:
            5(?:
              1[0458]|
              [23][458]
            )|
            71\d
          )\d{4}
        </nationalNumberPattern>
      </voip>
    </territory>"];
  ["

    <!-- Congo - Kinshasa (CD) -->
    <!-- http://www.itu.int/oth/T0202000037/en -->
    <territory id=""CD"" countryCode=""243"" internationalPrefix=""00"" nationalPrefix=""0"">
      <availableFormats>
        <numberFormat pattern=""(\d{2})(\d{2})(\d{3})"" nationalPrefixFormattingRule=""$NP$FG"">
          <leadingDigits>88</leadingDigits>
          <format>$1 $2 $3</format>
        </numberFormat>
        <numberFormat pattern=""(\d{2})(\d{5})"" nationalPrefixFormattingRule=""$NP$FG"">
          <leadingDigits>[1-6]</leadingDigits>
          <format>$1 $2</format>
        </numberFormat>
        <numberFormat pattern=""(\d{2})(\d{2})(\d{4})"" nationalPrefixFormattingRule=""$NP$FG"">
          <leadingDigits>2</leadingDigits>
          <format>$1 $2 $3</format>
        </numberFormat>
        <numberFormat pattern=""(\d{2})(\d{3})(\d{4})"" nationalPrefixFormattingRule=""$NP$FG"">
          <leadingDigits>1</leadingDigits>
          <format>$1 $2 $3</format>
        </numberFormat>
        <numberFormat pattern=""(\d{3})(\d{3})(\d{3})"" nationalPrefixFormattingRule=""$NP$FG"">
          <leadingDigits>[89]</leadingDigits>
          <format>$1 $2 $3</format>
        </numberFormat>
        <numberFormat pattern=""(\d{2})(\d{2})(\d{3})(\d{3})"" nationalPrefixFormattingRule=""$NP$FG"">
          <leadingDigits>5</leadingDigits>
          <format>$1 $2 $3 $4</format>
        </numberFormat>
      </availableFormats>
      <generalDesc>
        <nationalNumberPattern>
          (?:
            (?:
              [189]|
              5\d
            )\d|
            2
          )\d{7}|
          [1-68]\d{6}
        </nationalNumberPattern>
      </generalDesc>
      <fixedLine>
        <possibleLengths national=""[7-10]""/>
        <exampleNumber>1234567</exampleNumber>
        <nationalNumberPattern>
          (?:
            (?:
              12|
              573
            )\d\d|
            276
          )\d{5}|
          [1-6]\d{6}
        </nationalNumberPattern>
      </fixedLine>
      <!-- As of May'13 the 88 range looks as if it is defunct. The ITU document lists ""Yozma
";
   "           Timeturns"" as the operator, but their website (http://www.ytt.cd) is offline and the
           holdings company http://www.timeturnsholdings.com/products does not show a link for
           DRC. While there are still numbers of the form ""88\d{5}"" online, none of the ones
           tried were valid. If the holdings company does not respond to requests about this
           range and unless we receive further information, we will remove this range. -->
      <mobile>
        <possibleLengths national=""7,9""/>
        <exampleNumber>991234567</exampleNumber>
        <nationalNumberPattern>
          88\d{5}|
          (?:
            8[0-69]|
            9[016-9]
          )\d{7}
        </nationalNumberPattern>
      </mobile>
    </territory>"];
  ["

    <!-- Central African Republic (CF) -->
    <!-- http://www.itu.int/oth/T0202000028/en -->
    <territory id=""CF"" countryCode=""236"" internationalPrefix=""00"">
      <availableFormats>
        <numberFormat pattern=""(\d{2})(\d{2})(\d{2})(\d{2})"">
          <leadingDigits>[26-8]</leadingDigits>
          <format>$1 $2 $3 $4</format>
        </numberFormat>
      </availableFormats>
      <generalDesc>
        <nationalNumberPattern>
          8776\d{4}|
          (?:
            [27]\d|
            61
          )\d{6}
        </nationalNumberPattern>
      </generalDesc>
      <fixedLine>
        <possibleLengths national=""8""/>
        <exampleNumber>21612345</exampleNumber>
        <nationalNumberPattern>
          (?:
            2[12]|
            61
          )\d{6}
        </nationalNumberPattern>
      </fixedLine>
      <mobile>
        <possibleLengths national=""8""/>
        <exampleNumber>70012345</exampleNumber>
        <nationalNumberPattern>7[02-7]\d{6}</nationalNumberPattern>
      </mobile>
      <premiumRate>
        <possibleLengths national=""8""/>
        <exampleNumber>87761234</exampleNumber>
        <nationalNumberPattern>8776\d{4}</nationalNumberPattern>
      </premiumRate>
    </territory>"];
  ["

    <!-- Congo - Brazzaville (CG) -->
    <!-- http://www.itu.int/oth/T020200002E/en -->
    <territory id=""CG"" countryCode=""242"" internationalPrefix=""00"">
      <availableFormats>
        <numberFormat pattern=""(\d)(\d{4})(\d{4})"">
          <leadingDigits>8</leadingDigits>
          <format>$1 $2 $3</format>
        </numberFormat>
        <numberFormat pattern=""(\d{2})(\d{3})(\d{4})"">
          <leadingDigits>[02]</leadingDigits>
          <format>$1 $2 $3</format>
        </numberFormat>
      </availableFormats>
      <generalDesc>
        <nationalNumberPattern>
          222\d{6}|
          (?:
            0\d|
            80
          )\d{7}
        </nationalNumberPattern>
      </generalDesc>
      <fixedLine>
        <possibleLengths national=""9""/>
        <exampleNumber>222123456</exampleNumber>
        <nationalNumberPattern>222[1-589]\d{5}</nationalNumberPattern>
      </fixedLine>
      <mobile>
        <possibleLengths national=""9""/>
        <exampleNumber>061234567</exampleNumber>
        <nationalNumberPattern>
          026(?:
            1[0-5]|
            6[6-9]
          )\d{4}|
          0(?:
            [14-6]\d\d|
            2(?:
              40|
              5[5-8]|
              6[07-9]
            )
          )\d{5}
        </nationalNumberPattern>
      </mobile>
      <!-- Referred to as a ""Green number"" in the telephone plan. -->
      <!-- Using this to represent Value Added Service in the plan. -->
      <premiumRate>
        <possibleLengths national=""9""/>
        <exampleNumber>800123456</exampleNumber>
        <nationalNumberPattern>80[0-2]\d{6}</nationalNumberPattern>
      </premiumRate>
    </territory>"];
  ["

    <!-- Switzerland (CH) -->
    <!-- Under Technical prescriptions: Numbering plan for international carriers. -->
    <!-- https://www.bakom.admin.ch/en/numbering-and-telephony -->
    <territory id=""CH"" countryCode=""41"" internationalPrefix=""00"" nationalPrefix=""0""
               mobileNumberPortableRegion=""true"">
      <availableFormats>
        <numberFormat pattern=""(\d{3})(\d{3})(\d{3})"" nationalPrefixFormattingRule=""$NP$FG"">
          <leadingDigits>
            8[047]|
            90
          </leadingDigits>
          <format>$1 $2 $3</format>
        </numberFormat>
        <numberFormat pattern=""(\d{2})(\d{3})(\d{2})(\d{2})"" nationalPrefixFormattingRule=""$NP$FG"">
          <leadingDigits>
            [2-79]|
            81
          </leadingDigits>
          <format>$1 $2 $3 $4</format>
        </numberFormat>
        <numberFormat pattern=""(\d{3})(\d{2})(\d{3})(\d{2})(\d{2})""
                      nationalPrefixFormattingRule=""$NP$FG"">
          <leadingDigits>8</leadingDigits>
          <format>$1 $2 $3 $4 $5</format>
        </numberFormat>
      </availableFormats>
      <generalDesc>
        <nationalNumberPattern>
          8\d{11}|
          [2-9]\d{8}
        </nationalNumberPattern>
      </generalDesc>
      <fixedLine>
        <possibleLengths national=""9""/>
        <exampleNumber>212345678</exampleNumber>
        <nationalNumberPattern>
          (?:
            2[12467]|
            3[1-4]|
            4[134]|
            5[256]|
            6[12]|
            [7-9]1
          )\d{7}
        </nationalNumberPattern>
      </fixedLine>
      <mobile>
        <possibleLengths national=""9""/>
        <exampleNumber>781234567</exampleNumber>
        <nationalNumberPattern>
          (?:
            6[89]|
            7[235-9]
          )\d{7}
        </nationalNumberPattern>
      </mobile>
      <!-- https://www.eofcom.admin.ch/eofcom/public/listEofcom_e164Allocated.do -->
      <pager>
        <possibleLengths national=""9""/>
        <exampleNumber>740123456</exampleNumber>
";
   "        <nationalNumberPattern>74[0248]\d{6}</nationalNumberPattern>
      </pager>
      <tollFree>
        <possibleLengths national=""9""/>
        <exampleNumber>800123456</exampleNumber>
        <nationalNumberPattern>800\d{6}</nationalNumberPattern>
      </tollFree>
      <premiumRate>
        <possibleLengths national=""9""/>
        <exampleNumber>900123456</exampleNumber>
        <nationalNumberPattern>90[016]\d{6}</nationalNumberPattern>
      </premiumRate>
      <sharedCost>
        <possibleLengths national=""9""/>
        <exampleNumber>840123456</exampleNumber>
        <nationalNumberPattern>84[0248]\d{6}</nationalNumberPattern>
      </sharedCost>
      <personalNumber>
        <possibleLengths national=""9""/>
        <exampleNumber>878123456</exampleNumber>
        <nationalNumberPattern>878\d{6}</nationalNumberPattern>
      </personalNumber>
      <!-- Used for corporate networks. -->
      <uan>
        <possibleLengths national=""9""/>
        <exampleNumber>581234567</exampleNumber>
        <nationalNumberPattern>5[18]\d{7}</nationalNumberPattern>
      </uan>
      <voicemail>
        <possibleLengths national=""12""/>
        <exampleNumber>860123456789</exampleNumber>
        <nationalNumberPattern>860\d{9}</nationalNumberPattern>
      </voicemail>
    </territory>"];
  ["

    <!-- Côte d’Ivoire (CI) -->
    <!-- http://www.itu.int/oth/T0202000031/en -->
    <!-- http://fr.wikipedia.org/wiki/Liste_des_indicatifs_téléphoniques_en_Côte_d’Ivoire -->
    <territory id=""CI"" countryCode=""225"" internationalPrefix=""00"">
      <availableFormats>
        <numberFormat pattern=""(\d{2})(\d{2})(\d)(\d{5})"">
          <leadingDigits>2</leadingDigits>
          <format>$1 $2 $3 $4</format>
        </numberFormat>
        <numberFormat pattern=""(\d{2})(\d{2})(\d{2})(\d{4})"">
          <leadingDigits>0</leadingDigits>
          <format>$1 $2 $3 $4</format>
        </numberFormat>
      </availableFormats>
      <generalDesc>
        <nationalNumberPattern>[02]\d{9}</nationalNumberPattern>
      </generalDesc>
      <fixedLine>
        <possibleLengths national=""10""/>
        <exampleNumber>2123456789</exampleNumber>
        <nationalNumberPattern>
          2(?:
            [15]\d{3}|
            7(?:
              2(?:
                0[23]|
                1[2357]|
                2[245]|
                3[45]|
                4[3-5]
              )|
              3(?:
                06|
                1[69]|
                [2-6]7
              )
            )
          )\d{5}
        </nationalNumberPattern>
      </fixedLine>
      <!-- Added the prefixes 4[0-2] (Moov), 5[7-9] and 61 because SMS messages have been
           successfully delivered. Supported by numbers found on the internet. Also added 43
           (Moov) based on numbers found online. Added 8[456] MTN ranges based on Wikipedia page.
           50 has been removed since Warid seems to have stopped operation in Côte d'Ivoire.
           Prefix 73 and 97[0-3] are added based on user reports. -->
      <mobile>
        <possibleLengths national=""10""/>
        <exampleNumber>0123456789</exampleNumber>
        <nationalNumberPattern>0[157]\d{8}</nationalNumberPattern>
      </mobile>
    </territory>"];
  ["

    <!-- Cook Islands (CK) -->
    <!-- http://www.itu.int/oth/T020200002F/en -->
    <territory id=""CK"" countryCode=""682"" internationalPrefix=""00"">
      <availableFormats>
        <numberFormat pattern=""(\d{2})(\d{3})"">
          <leadingDigits>[2-578]</leadingDigits>
          <format>$1 $2</format>
        </numberFormat>
      </availableFormats>
      <generalDesc>
        <nationalNumberPattern>[2-578]\d{4}</nationalNumberPattern>
      </generalDesc>
      <fixedLine>
        <possibleLengths national=""5""/>
        <exampleNumber>21234</exampleNumber>
        <nationalNumberPattern>
          (?:
            2\d|
            3[13-7]|
            4[1-5]
          )\d{3}
        </nationalNumberPattern>
      </fixedLine>
      <mobile>
        <possibleLengths national=""5""/>
        <exampleNumber>71234</exampleNumber>
        <nationalNumberPattern>[578]\d{4}</nationalNumberPattern>
      </mobile>
    </territory>"];
  ["

    <!-- Chile (CL) -->
    <!-- As per ITU doc, fr";
   "om 5 Sep 2016, fixed-mobile portability will apply in Chile. So same
         nationalNumberPatterns are maintained in both fixed-line and mobile categories. -->
    <!-- According to subtel.gob.cl as of August 2014, nationalPrefix(0) and carrier codes are not
         required to make a call between fixed-line and mobile in Chile. -->
    <!-- http://www.itu.int/oth/T020200002A/en -->
    <!-- http://en.wikipedia.org/wiki/%2B56 -->
    <!-- http://www.subtel.gob.cl/base_numeracion/tabla_numeracion_ido_idd.xlsx -->
    <!-- When dialling mobile numbers fr";
   "om landlines, or vice versa, you need a prefix of 0, which
         we strip here. National destinations may be dialled with a carrier if they are not lo";
   "cal
         so we extract these carrier codes as well. -->
    <territory id=""CL"" countryCode=""56""
               internationalPrefix=""(?:0|1(?:1[0-69]|2[02-5]|5[13-58]|69|7[0167]|8[018]))0""
               mobileNumberPortableRegion=""true"">
      <availableFormats>
        <!-- Formats four digit 1X short numbers as a block. We are not formatting other 4 and 5
             digit short codes as block because those prefixes overlap with phone numbers and
             including them suppresses the AYTF of overlapping prefix phone numbers. -->
        <numberFormat pattern=""(\d{4})"">
          <leadingDigits>
            1(?:
              [03-589]|
              21
            )|
            [29]0|
            78
          </leadingDigits>
          <format>$1</format>
          <intlFormat>NA</intlFormat>
        </numberFormat>
        <!-- For only 219X prefix used rurally by CTR. -->
        <numberFormat pattern=""(\d{5})(\d{4})"" nationalPrefixFormattingRule=""($FG)"">
          <leadingDigits>219</leadingDigits>
          <leadingDigits>2196</leadingDigits>
          <format>$1 $2</format>
        </numberFormat>
        <numberFormat pattern=""(\d{3})(\d{3})(\d{3})"">
          <leadingDigits>
            60|
            809
";
   "          </leadingDigits>
          <format>$1 $2 $3</format>
        </numberFormat>
        <!-- Format for VOIP numbers. -->
        <numberFormat pattern=""(\d{2})(\d{3})(\d{4})"">
          <leadingDigits>44</leadingDigits>
          <format>$1 $2 $3</format>
        </numberFormat>
        <!-- Format for 2X fixed-line numbers. Note that due to fixed-mobile portability same
             ranges are maintained in both fixed-line and mobile categories. Formats are based
             on original phone number type. -->
        <numberFormat pattern=""(\d)(\d{4})(\d{4})"" nationalPrefixFormattingRule=""($FG)"">
          <leadingDigits>2[1-36]</leadingDigits>
          <format>$1 $2 $3</format>
        </numberFormat>
        <!-- Format for mobile numbers. -->
        <numberFormat pattern=""(\d)(\d{4})(\d{4})"">
          <leadingDigits>
            9(?:
              10|
              [2-9]
            )
          </leadingDigits>
          <format>$1 $2 $3</format>
        </numberFormat>
        <!-- Format for all other fixed-line numbers. -->
        <numberFormat pattern=""(\d{2})(\d{3})(\d{4})"" nationalPrefixFormattingRule=""($FG)"">
          <leadingDigits>
            3[2-5]|
            [47]|
            5[1-3578]|
            6[13-57]|
            8(?:
              0[1-8]|
              [1-9]
            )
          </leadingDigits>
          <format>$1 $2 $3</format>
        </numberFormat>
        <!-- Format for va";
   "riable cost numbers like toll-free, shared cost. -->
        <numberFormat pattern=""(\d{3})(\d{3})(\d{3,4})"">
          <leadingDigits>
            60|
            8
          </leadingDigits>
          <format>$1 $2 $3</format>
        </numberFormat>
        <!-- For 11 digit toll-free numbers. -->
        <numberFormat pattern=""(\d{4})(\d{3})(\d{4})"">
          <leadingDigits>1</leadingDigits>
          <format>$1 $2 $3</format>
        </numberFormat>
        <!-- For 11 digit shared cost numbers. -->
        <numberFormat pattern=""(\d{3})(\d{3})(\d{2})(\d{3})"">
";
   "          <leadingDigits>60</leadingDigits>
          <format>$1 $2 $3 $4</format>
        </numberFormat>
      </availableFormats>
      <generalDesc>
        <nationalNumberPattern>
          12300\d{6}|
          6\d{9,10}|
          [2-9]\d{8}
        </nationalNumberPattern>
      </generalDesc>
      <noInternationalDialling>
        <possibleLengths national=""10,11""/>
        <nationalNumberPattern>600\d{7,8}</nationalNumberPattern>
      </noInternationalDialling>
      <!-- Area codes do not need to be dialled when dialling within the same area, so the
           smallest possible number is length 7. -->
      <!-- Lo";
   "cal-only calls are no longer valid and it is mandated to use area codes while calling
           between different regions. -->
      <!-- In mid-2013, Chile switched fr";
   "om 8 digits to 9 digits for fixed-line numbers, by
           inserting a '2' after the area code (which are 2 digits, with the exception of '2').
           As of Aug. 2014, all of the prefixes have been switched over to the new plan.
           IMPORTANT: Originally after the change Santiago numbers had a prefix of ""22"", but
           already numbers with the prefix ""23"" are being added.
           See: http://www.gob.cl/especiales/informate-de-la-nueva-forma-de-marcar/
                http://www.subtel.cl/index.php?option=com_content&view=article&id=3081:&catid=3:noticias
           Added 232[3-8] ranges based on online evidence. -->
      <fixedLine>
        <possibleLengths national=""9""/>
        <exampleNumber>600123456</exampleNumber>
        <nationalNumberPattern>
          2(?:
            1982[0-6]|
            3314[05-9]
          )\d{3}|
          (?:
            2(?:
              1(?:
                160|
                962
              )|
              3(?:
                (?:
                  [24]\d|
                  50
                )\d|
                3(?:
                  [034679]\d|
                  1[0-35-9]|
                  2[1-9]|
                  5[0-24-9]|
";
   "                  8[0-389]
                )|
                600
              )|
              646[59]
            )|
            (?:
              600|
              80[1-9]
            )\d\d|
            9(?:
              (?:
                10[0-2]|
                7[1-9]\d
              )\d|
              3(?:
                [0-57-9]\d\d|
                6(?:
                  0[02-9]|
                  [1-9]\d
                )
              )|
              6(?:
                [0-8]\d\d|
                9(?:
                  [02-79]\d|
                  1[05-9]
                )
              )|
              9(?:
                [03-9]\d\d|
                1(?:
                  [0235-9]\d|
                  4[0-24-9]
                )|
                2(?:
                  [0-79]\d|
                  8[0-46-9]
                )
              )
            )
          )\d{4}|
          (?:
            22|
            3[2-5]|
            [47][1-35]|
            5[1-3578]|
            6[13-57]|
            8[1-9]|
            9[2458]
          )\d{7}
        </nationalNumberPattern>
      </fixedLine>
      <!-- Supported 9[23] mobile ranges as per user report. -->
      <mobile>
        <possibleLengths national=""9""/>
        <exampleNumber>221234567</exampleNumber>
        <nationalNumberPattern>
          2(?:
            1982[0-6]|
            3314[05-9]
          )\d{3}|
          (?:
            2(?:
              1(?:
                160|
                962
              )|
              3(?:
                (?:
                  [24]\d|
                  50
                )\d|
                3(?:
                  [034679]\d|
                  1[0-35-9]|
                  2[1-9]|
                  5[0-24-9]|
                  8[0-389]
                )|
                600
              )|
              646[59]
            )|
            80[1-8]\d\d|
            9(?:
              (?:
                10[0-2]|
                7[1-9]\d
              )\d|
";
   "              3(?:
                [0-57-9]\d\d|
                6(?:
                  0[02-9]|
                  [1-9]\d
                )
              )|
              6(?:
                [0-8]\d\d|
                9(?:
                  [02-79]\d|
                  1[05-9]
                )
              )|
              9(?:
                [03-9]\d\d|
                1(?:
                  [0235-9]\d|
                  4[0-24-9]
                )|
                2(?:
                  [0-79]\d|
                  8[0-46-9]
                )
              )
            )
          )\d{4}|
          (?:
            22|
            3[2-5]|
            [47][1-35]|
            5[1-3578]|
            6[13-57]|
            8[1-9]|
            9[2458]
          )\d{7}
        </nationalNumberPattern>
      </mobile>
      <!-- Toll free patterns have been collected by looking at numbers on the internet, rather than
           fr";
   "om a definitive source. -->
      <!-- 1230 numbers are used by Visa/Mastercard helplines in Chile -->
      <tollFree>
        <possibleLengths national=""9,11""/>
        <exampleNumber>800123456</exampleNumber>
        <nationalNumberPattern>
          (?:
            123|
            8
          )00\d{6}
        </nationalNumberPattern>
      </tollFree>
      <!-- http://empresa.movistar.cl/nuestros_productos/soluciones_telefonia_ip/servicios/servicio_600.php -->
      <sharedCost>
        <possibleLengths national=""10,11""/>
        <exampleNumber>6001234567</exampleNumber>
        <nationalNumberPattern>600\d{7,8}</nationalNumberPattern>
      </sharedCost>
      <voip>
        <possibleLengths national=""9""/>
        <exampleNumber>441234567</exampleNumber>
        <nationalNumberPattern>44\d{7}</nationalNumberPattern>
      </voip>
    </territory>"];
  ["

    <!-- Cameroon (CM) -->
    <!-- http://www.itu.int/oth/T0202000024/en -->
    <!-- http://www.itu.int/dms_pub/itu-t/opb/sp/T-SP-OB.1063-2014-OAS-PDF-E.pdf -->
    <territory id=""CM"" countryCode=""237"" internationalPrefix=""00"" mobileNumberPortableRegion=""true"">
      <availableFormats>
        <numberFormat pattern=""(\d{2})(\d{2})(\d{2})(\d{2})"">
          <leadingDigits>88</leadingDigits>
          <format>$1 $2 $3 $4</format>
        </numberFormat>
        <!-- Formatting in the ITU update document aligns with formatting online (all 2 digit
             groups). For the new number format with 9 digits the first digit has it's own group. -->
        <numberFormat pattern=""(\d)(\d{2})(\d{2})(\d{2})(\d{2})"">
          <leadingDigits>
            [26]|
            88
          </leadingDigits>
          <format>$1 $2 $3 $4 $5</format>
        </numberFormat>
      </availableFormats>
      <generalDesc>
        <nationalNumberPattern>
          [26]\d{8}|
          88\d{6,7}
        </nationalNumberPattern>
      </generalDesc>
      <!-- CDMA numbers are described in a subcategory to fixed line numbers in the ITU update
           document, so those prefixes are added to fixed line (24[23]). -->
      <fixedLine>
        <possibleLengths national=""9""/>
        <exampleNumber>222123456</exampleNumber>
        <nationalNumberPattern>
          2(?:
            22|
            33
          )\d{6}
        </nationalNumberPattern>
      </fixedLine>
      <!-- 68 was added based on info found online. -->
      <mobile>
        <possibleLengths national=""9""/>
        <exampleNumber>671234567</exampleNumber>
        <nationalNumberPattern>
          (?:
            24[23]|
            6(?:
              [25-9]\d|
              4[01]
            )
          )\d{6}
        </nationalNumberPattern>
      </mobile>
      <!-- Numbers starting with 8 are listed as value-added in the ITU doc, but only numbers
           starting with 88 have been found online. These are all listed as being ""numéro vert"",
";
   "           ""ligne verte"" or ""gratuit"" (free). -->
      <tollFree>
        <possibleLengths national=""8,9""/>
        <exampleNumber>88012345</exampleNumber>
        <nationalNumberPattern>88\d{6,7}</nationalNumberPattern>
      </tollFree>
    </territory>"];
  ["

    <!-- China (CN) -->
    <!-- The international/national prefix patterns must not collide with valid prefixes such
         as 17[0678] and 19[89]. 179XX00 is a valid calling prefix, see: www.chahaoba.com/179 -->
    <!-- http://www.itu.int/oth/T020200002B/en -->
    <!-- https://en.wikipedia.org/wiki/Telephone_numbers_in_China -->
    <territory id=""CN"" countryCode=""86"" preferredInternationalPrefix=""00""
               internationalPrefix=""00|1(?:[12]\d|79)\d\d00"" nationalPrefix=""0""
               nationalPrefixForParsing=""(1(?:[12]\d|79)\d\d)|0"">
      <availableFormats>
        <!-- 5-6 digit short number -->
        <numberFormat pattern=""(\d{5,6})"">
          <leadingDigits>
            1(?:
              00|
              2[13]
            )|
            9[56]
          </leadingDigits>
          <leadingDigits>
            1(?:
              00|
              2(?:
                1|
                39
              )
            )|
            9[56]
          </leadingDigits>
          <leadingDigits>
            1(?:
              00|
              2(?:
                1|
                395
              )
            )|
            9[56]
          </leadingDigits>
          <format>$1</format>
          <intlFormat>NA</intlFormat>
        </numberFormat>
        <numberFormat pattern=""(\d{5,6})"">
          <leadingDigits>
            1(?:
              0|
              23
            )|
            781|
            [1-9]12
          </leadingDigits>
          <leadingDigits>
            1(?:
              0|
              23
            )|
            7812|
            [1-9]123
          </leadingDigits>
          <leadingDigits>
            1(?:
              0|
              23(?:
                [0-8]|
                9[0-46-9]
              )
            )|
            78123|
            [1-9]123
          </leadingDigits>
          <format>$1</format>
          <intlFormat>NA</intlFormat>
        </numberFormat>
        <!-- 100xx and 9[56]xxx(x) numbers with two-digit area codes. -->
";
   "        <numberFormat pattern=""(\d{2})(\d{5,6})"" nationalPrefixFormattingRule=""$NP$FG""
                      carrierCodeFormattingRule=""$CC $FG"">
          <leadingDigits>
            (?:
              10|
              2[0-57-9]
            )[19]|
            3(?:
              [157]|
              35|
              49|
              9[1-68]
            )|
            4(?:
              1[124-9]|
              2[179]|
              6[47-9]|
              7|
              8[23]
            )|
            5(?:
              [1357]|
              2[37]|
              4[36]|
              6[1-46]|
              80
            )|
            6(?:
              3[1-5]|
              6[0238]|
              9[12]
            )|
            7(?:
              01|
              [1579]|
              2[248]|
              3[014-9]|
              4[3-6]|
              6[023689]
            )|
            8(?:
              07|
              1[236-8]|
              2[5-7]|
              [37]|
              8[36-8]|
              9[1-8]
            )|
            9(?:
              0[1-3689]|
              1[1-79]|
              3|
              4[13]|
              5[1-5]|
              7[0-79]|
              9[0-35-9]
            )|
            (?:
              4[35]|
              59|
              85
            )[1-9]
          </leadingDigits>
          <leadingDigits>
            (?:
              10|
              2[0-57-9]
            )(?:
              1[02]|
              9[56]
            )|
            8078|
            (?:
              3(?:
                [157]\d|
                35|
                49|
                9[1-68]
              )|
              4(?:
                1[124-9]|
                2[179]|
                [35][1-9]|
                6[47-9]|
                7\d|
                8[23]
              )|
              5(?:
                [1357]\d|
                2[37]|
                4[36]|
                6[1-46]|
                80|
                9[1-9]
";
   "              )|
              6(?:
                3[1-5]|
                6[0238]|
                9[12]
              )|
              7(?:
                01|
                [1579]\d|
                2[248]|
                3[014-9]|
                4[3-6]|
                6[023689]
              )|
              8(?:
                1[236-8]|
                2[5-7]|
                [37]\d|
                5[1-9]|
                8[36-8]|
                9[1-8]
              )|
              9(?:
                0[1-3689]|
                1[1-79]|
                3\d|
                4[13]|
                5[1-5]|
                7[0-79]|
                9[0-35-9]
              )
            )1
          </leadingDigits>
          <leadingDigits>
            10(?:
              1(?:
                0|
                23
              )|
              9[56]
            )|
            2[0-57-9](?:
              1(?:
                00|
                23
              )|
              9[56]
            )|
            80781|
            (?:
              3(?:
                [157]\d|
                35|
                49|
                9[1-68]
              )|
              4(?:
                1[124-9]|
                2[179]|
                [35][1-9]|
                6[47-9]|
                7\d|
                8[23]
              )|
              5(?:
                [1357]\d|
                2[37]|
                4[36]|
                6[1-46]|
                80|
                9[1-9]
              )|
              6(?:
                3[1-5]|
                6[0238]|
                9[12]
              )|
              7(?:
                01|
                [1579]\d|
                2[248]|
                3[014-9]|
                4[3-6]|
                6[023689]
              )|
              8(?:
                1[236-8]|
                2[5-7]|
                [37]\d|
                5[1-9]|
                8[36-8]|
                9[1-8]
              )|
";
   "              9(?:
                0[1-3689]|
                1[1-79]|
                3\d|
                4[13]|
                5[1-5]|
                7[0-79]|
                9[0-35-9]
              )
            )12
          </leadingDigits>
          <leadingDigits>
            10(?:
              1(?:
                0|
                23
              )|
              9[56]
            )|
            2[0-57-9](?:
              1(?:
                00|
                23
              )|
              9[56]
            )|
            807812|
            (?:
              3(?:
                [157]\d|
                35|
                49|
                9[1-68]
              )|
              4(?:
                1[124-9]|
                2[179]|
                [35][1-9]|
                6[47-9]|
                7\d|
                8[23]
              )|
              5(?:
                [1357]\d|
                2[37]|
                4[36]|
                6[1-46]|
                80|
                9[1-9]
              )|
              6(?:
                3[1-5]|
                6[0238]|
                9[12]
              )|
              7(?:
                01|
                [1579]\d|
                2[248]|
                3[014-9]|
                4[3-6]|
                6[023689]
              )|
              8(?:
                1[236-8]|
                2[5-7]|
                [37]\d|
                5[1-9]|
                8[36-8]|
                9[1-8]
              )|
              9(?:
                0[1-3689]|
                1[1-79]|
                3\d|
                4[13]|
                5[1-5]|
                7[0-79]|
                9[0-35-9]
              )
            )123
          </leadingDigits>
          <leadingDigits>
            10(?:
              1(?:
                0|
                23
              )|
              9[56]
            )|
            2[0-57-9](?:
              1(?:
                00|
                23
";
   "              )|
              9[56]
            )|
            (?:
              3(?:
                [157]\d|
                35|
                49|
                9[1-68]
              )|
              4(?:
                1[124-9]|
                2[179]|
                [35][1-9]|
                6[47-9]|
                7\d|
                8[23]
              )|
              5(?:
                [1357]\d|
                2[37]|
                4[36]|
                6[1-46]|
                80|
                9[1-9]
              )|
              6(?:
                3[1-5]|
                6[0238]|
                9[12]
              )|
              7(?:
                01|
                [1579]\d|
                2[248]|
                3[014-9]|
                4[3-6]|
                6[023689]
              )|
              8(?:
                078|
                1[236-8]|
                2[5-7]|
                [37]\d|
                5[1-9]|
                8[36-8]|
                9[1-8]
              )|
              9(?:
                0[1-3689]|
                1[1-79]|
                3\d|
                4[13]|
                5[1-5]|
                7[0-79]|
                9[0-35-9]
              )
            )123
          </leadingDigits>
          <format>$1 $2</format>
        </numberFormat>
        <numberFormat pattern=""(\d{3})(\d{4})"">
          <leadingDigits>[1-9]</leadingDigits>
          <leadingDigits>
            1[1-9]|
            26|
            [3-9]|
            (?:
              10|
              2[0-57-9]
            )(?:
              [0-8]|
              9[0-47-9]
            )
          </leadingDigits>
          <leadingDigits>
            1(?:
              0(?:
                [02-8]|
                1(?:
                  [013-9]|
                  2[0-24-9]
                )|
                9[0-47-9]
              )|
              [1-9]
            )|
            2(?:
              [0-57-9](?:
                [02-8]|
";
   "                1(?:
                  0[1-9]|
                  [13-9]|
                  2[0-24-9]
                )|
                9[0-47-9]
              )|
              6
            )|
            [3-9]
          </leadingDigits>
          <leadingDigits>
            1(?:
              0(?:
                [02-8]|
                1(?:
                  [013-9]|
                  2[0-24-9]
                )|
                9[0-47-9]
              )|
              [1-9]
            )|
            2(?:
              [0-57-9](?:
                [02-8]|
                1(?:
                  0[1-9]|
                  [13-9]|
                  2[0-24-9]
                )|
                9[0-47-9]
              )|
              6
            )|
            3(?:
              [0268]|
              3[0-46-9]|
              4[0-8]|
              9[079]
            )|
            4(?:
              [049]|
              1[03]|
              2[02-68]|
              [35]0|
              6[0-356]|
              8[014-9]
            )|
            5(?:
              0|
              2[0-24-689]|
              4[0-2457-9]|
              6[057-9]|
              8[1-9]|
              90
            )|
            6(?:
              [0-24578]|
              3[06-9]|
              6[14-79]|
              9[03-9]
            )|
            7(?:
              0[02-9]|
              2[0135-79]|
              3[23]|
              4[0-27-9]|
              6[1457]|
              8
            )|
            8(?:
              [046]|
              1[01459]|
              2[0-489]|
              50|
              8[0-2459]|
              9[09]
            )|
            9(?:
              0[0457]|
              1[08]|
              [268]|
              4[024-9]|
              5[06-9]|
              78|
              94
            )|
            (?:
              3(?:
                [157]\d|
                35|
                49|
                9[1-68]
              )|
              4(?:
";
   "                1[124-9]|
                2[179]|
                [35][1-9]|
                6[47-9]|
                7\d|
                8[23]
              )|
              5(?:
                [1357]\d|
                2[37]|
                4[36]|
                6[1-46]|
                80|
                9[1-9]
              )|
              6(?:
                3[1-5]|
                6[0238]|
                9[12]
              )|
              7(?:
                01|
                [1579]\d|
                2[248]|
                3[014-9]|
                4[3-6]|
                6[023689]
              )|
              8(?:
                1[236-8]|
                2[5-7]|
                [37]\d|
                5[1-9]|
                8[36-8]|
                9[1-8]
              )|
              9(?:
                0[1-3689]|
                1[1-79]|
                3\d|
                4[13]|
                5[1-5]|
                7[0-79]|
                9[0-35-9]
              )
            )(?:
              [02-9]|
              1(?:
                [013-9]|
                2[0-24-9]
              )
            )
          </leadingDigits>
          <leadingDigits>
            1(?:
              0(?:
                [02-8]|
                1(?:
                  [013-9]|
                  2[0-24-9]
                )|
                9[0-47-9]
              )|
              [1-9]
            )|
            2(?:
              [0-57-9](?:
                [02-8]|
                1(?:
                  0[1-9]|
                  [13-9]|
                  2[0-24-9]
                )|
                9[0-47-9]
              )|
              6
            )|
            3(?:
              [0268]|
              3[0-46-9]|
              4[0-8]|
              9[079]
            )|
            4(?:
              [049]|
              1[03]|
              2[02-68]|
              [35]0|
              6[0-356]|
              8[014-9]
            )|
            5(?:
";
   "              0|
              2[0-24-689]|
              4[0-2457-9]|
              6[057-9]|
              8[1-9]|
              90
            )|
            6(?:
              [0-24578]|
              3[06-9]|
              6[14-79]|
              9[03-9]
            )|
            7(?:
              0[02-9]|
              2[0135-79]|
              3[23]|
              4[0-27-9]|
              6[1457]|
              8
            )|
            8(?:
              0(?:
                [0-689]|
                7[0-79]
              )|
              1[01459]|
              2[0-489]|
              [46]|
              50|
              8[0-2459]|
              9[09]
            )|
            9(?:
              0[0457]|
              1[08]|
              [268]|
              4[024-9]|
              5[06-9]|
              78|
              94
            )|
            (?:
              3(?:
                [157]\d|
                35|
                49|
                9[1-68]
              )|
              4(?:
                1[124-9]|
                2[179]|
                [35][1-9]|
                6[47-9]|
                7\d|
                8[23]
              )|
              5(?:
                [1357]\d|
                2[37]|
                4[36]|
                6[1-46]|
                80|
                9[1-9]
              )|
              6(?:
                3[1-5]|
                6[0238]|
                9[12]
              )|
              7(?:
                01|
                [1579]\d|
                2[248]|
                3[014-9]|
                4[3-6]|
                6[023689]
              )|
              8(?:
                078|
                1[236-8]|
                2[5-7]|
                [37]\d|
                5[1-9]|
                8[36-8]|
                9[1-8]
              )|
              9(?:
                0[1-3689]|
                1[1-79]|
                3\d|
                4[13]|
                5[1-5]|
                7[0-79]|
";
   "                9[0-35-9]
              )
            )(?:
              [02-9]|
              1(?:
                [013-9]|
                2[0-24-9]
              )
            )
          </leadingDigits>
          <format>$1 $2</format>
          <intlFormat>NA</intlFormat>
        </numberFormat>
        <!-- 8-digit premium rate numbers. -->
        <numberFormat pattern=""(\d{4})(\d{4})"">
          <leadingDigits>16[08]</leadingDigits>
          <format>$1 $2</format>
          <intlFormat>NA</intlFormat>
        </numberFormat>
        <!-- 100xx and 9[56]xxx(x) numbers with three-digit area codes. -->
        <numberFormat pattern=""(\d{3})(\d{5,6})"" nationalPrefixFormattingRule=""$NP$FG""
                      carrierCodeFormattingRule=""$CC $FG"">
          <leadingDigits>
            3(?:
              [157]|
              35|
              49|
              9[1-68]
            )|
            4(?:
              [17]|
              2[179]|
              6[47-9]|
              8[23]
            )|
            5(?:
              [1357]|
              2[37]|
              4[36]|
              6[1-46]|
              80
            )|
            6(?:
              3[1-5]|
              6[0238]|
              9[12]
            )|
            7(?:
              01|
              [1579]|
              2[248]|
              3[014-9]|
              4[3-6]|
              6[023689]
            )|
            8(?:
              1[236-8]|
              2[5-7]|
              [37]|
              8[36-8]|
              9[1-8]
            )|
            9(?:
              0[1-3689]|
              1[1-79]|
              [379]|
              4[13]|
              5[1-5]
            )|
            (?:
              4[35]|
              59|
              85
            )[1-9]
          </leadingDigits>
          <leadingDigits>
            (?:
              3(?:
                [157]\d|
                35|
                49|
                9[1-68]
              )|
              4(?:
";
   "                [17]\d|
                2[179]|
                [35][1-9]|
                6[47-9]|
                8[23]
              )|
              5(?:
                [1357]\d|
                2[37]|
                4[36]|
                6[1-46]|
                80|
                9[1-9]
              )|
              6(?:
                3[1-5]|
                6[0238]|
                9[12]
              )|
              7(?:
                01|
                [1579]\d|
                2[248]|
                3[014-9]|
                4[3-6]|
                6[023689]
              )|
              8(?:
                1[236-8]|
                2[5-7]|
                [37]\d|
                5[1-9]|
                8[36-8]|
                9[1-8]
              )|
              9(?:
                0[1-3689]|
                1[1-79]|
                [379]\d|
                4[13]|
                5[1-5]
              )
            )[19]
          </leadingDigits>
          <leadingDigits>
            85[23](?:
              10|
              95
            )|
            (?:
              3(?:
                [157]\d|
                35|
                49|
                9[1-68]
              )|
              4(?:
                [17]\d|
                2[179]|
                [35][1-9]|
                6[47-9]|
                8[23]
              )|
              5(?:
                [1357]\d|
                2[37]|
                4[36]|
                6[1-46]|
                80|
                9[1-9]
              )|
              6(?:
                3[1-5]|
                6[0238]|
                9[12]
              )|
              7(?:
                01|
                [1579]\d|
                2[248]|
                3[014-9]|
                4[3-6]|
                6[023689]
              )|
              8(?:
                1[236-8]|
                2[5-7]|
                [37]\d|
                5[14-9]|
                8[36-8]|
                9[1-8]
";
   "              )|
              9(?:
                0[1-3689]|
                1[1-79]|
                [379]\d|
                4[13]|
                5[1-5]
              )
            )(?:
              10|
              9[56]
            )
          </leadingDigits>
          <leadingDigits>
            85[23](?:
              100|
              95
            )|
            (?:
              3(?:
                [157]\d|
                35|
                49|
                9[1-68]
              )|
              4(?:
                [17]\d|
                2[179]|
                [35][1-9]|
                6[47-9]|
                8[23]
              )|
              5(?:
                [1357]\d|
                2[37]|
                4[36]|
                6[1-46]|
                80|
                9[1-9]
              )|
              6(?:
                3[1-5]|
                6[0238]|
                9[12]
              )|
              7(?:
                01|
                [1579]\d|
                2[248]|
                3[014-9]|
                4[3-6]|
                6[023689]
              )|
              8(?:
                1[236-8]|
                2[5-7]|
                [37]\d|
                5[14-9]|
                8[36-8]|
                9[1-8]
              )|
              9(?:
                0[1-3689]|
                1[1-79]|
                [379]\d|
                4[13]|
                5[1-5]
              )
            )(?:
              100|
              9[56]
            )
          </leadingDigits>
          <format>$1 $2</format>
        </numberFormat>
        <numberFormat pattern=""(\d{4})(\d{4})"">
          <leadingDigits>[1-9]</leadingDigits>
          <leadingDigits>
            1(?:
              0(?:
                [02-8]|
                1[1-9]|
                9[0-47-9]
              )|
              [1-9]
            )|
            2(?:
              [0-57-9](?:
                [0-8]|
                9[0-47-9]
";
   "              )|
              6
            )|
            [3-9]
          </leadingDigits>
          <leadingDigits>
            1(?:
              0(?:
                [02-8]|
                1[1-9]|
                9[0-47-9]
              )|
              [1-9]
            )|
            26|
            3(?:
              [0268]|
              4[0-8]|
              9[079]
            )|
            4(?:
              [049]|
              2[02-68]|
              [35]0|
              6[0-356]|
              8[014-9]
            )|
            5(?:
              0|
              2[0-24-689]|
              4[0-2457-9]|
              6[057-9]|
              8[1-9]|
              90
            )|
            6(?:
              [0-24578]|
              3[06-9]|
              6[14-79]|
              9[03-9]
            )|
            7(?:
              0[02-9]|
              2[0135-79]|
              3[23]|
              4[0-27-9]|
              6[1457]|
              8
            )|
            8(?:
              [046]|
              1[01459]|
              2[0-489]|
              5(?:
                0|
                [23][0-8]
              )|
              8[0-2459]|
              9[09]
            )|
            9(?:
              0[0457]|
              1[08]|
              [268]|
              4[024-9]|
              5[06-9]
            )|
            (?:
              33|
              85[23]9
            )[0-46-9]|
            (?:
              2[0-57-9]|
              3(?:
                [157]\d|
                35|
                49|
                9[1-68]
              )|
              4(?:
                [17]\d|
                2[179]|
                [35][1-9]|
                6[47-9]|
                8[23]
              )|
              5(?:
                [1357]\d|
                2[37]|
                4[36]|
                6[1-46]|
                80|
                9[1-9]
              )|
              6(?:
                3[1-5]|
                6[0238]|
";
   "                9[12]
              )|
              7(?:
                01|
                [1579]\d|
                2[248]|
                3[014-9]|
                4[3-6]|
                6[023689]
              )|
              8(?:
                1[236-8]|
                2[5-7]|
                [37]\d|
                5[14-9]|
                8[36-8]|
                9[1-8]
              )|
              9(?:
                0[1-3689]|
                1[1-79]|
                [379]\d|
                4[13]|
                5[1-5]
              )
            )(?:
              [0-8]|
              9[0-47-9]
            )
          </leadingDigits>
          <leadingDigits>
            1(?:
              0[02-8]|
              [1-9]
            )|
            2(?:
              [0-57-9][0-8]|
              6
            )|
            3(?:
              [0268]|
              3[0-46-9]|
              4[0-8]|
              9[079]
            )|
            4(?:
              [049]|
              2[02-68]|
              [35]0|
              6[0-356]|
              8[014-9]
            )|
            5(?:
              0|
              2[0-24-689]|
              4[0-2457-9]|
              6[057-9]|
              90
            )|
            6(?:
              [0-24578]|
              3[06-9]|
              6[14-79]|
              9[03-9]
            )|
            7(?:
              0[02-9]|
              2[0135-79]|
              3[23]|
              4[0-27-9]|
              6[1457]|
              8
            )|
            8(?:
              [046]|
              1[01459]|
              2[0-489]|
              5(?:
                0|
                [23](?:
                  [02-8]|
                  1[1-9]|
                  9[0-46-9]
                )
              )|
              8[0-2459]|
              9[09]
            )|
            9(?:
              0[0457]|
              1[08]|
              [268]|
              4[024-9]|
              5[06-9]
            )|
";
   "            (?:
              10|
              2[0-57-9]
            )9[0-47-9]|
            (?:
              101|
              58|
              85[23]10
            )[1-9]|
            (?:
              3(?:
                [157]\d|
                35|
                49|
                9[1-68]
              )|
              4(?:
                [17]\d|
                2[179]|
                [35][1-9]|
                6[47-9]|
                8[23]
              )|
              5(?:
                [1357]\d|
                2[37]|
                4[36]|
                6[1-46]|
                80|
                9[1-9]
              )|
              6(?:
                3[1-5]|
                6[0238]|
                9[12]
              )|
              7(?:
                01|
                [1579]\d|
                2[248]|
                3[014-9]|
                4[3-6]|
                6[023689]
              )|
              8(?:
                1[236-8]|
                2[5-7]|
                [37]\d|
                5[14-9]|
                8[36-8]|
                9[1-8]
              )|
              9(?:
                0[1-3689]|
                1[1-79]|
                [379]\d|
                4[13]|
                5[1-5]
              )
            )(?:
              [02-8]|
              1(?:
                0[1-9]|
                [1-9]
              )|
              9[0-47-9]
            )
          </leadingDigits>
          <format>$1 $2</format>
          <intlFormat>NA</intlFormat>
        </numberFormat>
        <!-- 10 digit toll free or shared cost range -->
        <numberFormat pattern=""(\d{3})(\d{3})(\d{4})"">
          <leadingDigits>
            (?:
              4|
              80
            )0
          </leadingDigits>
          <format>$1 $2 $3</format>
        </numberFormat>
        <!-- 10 digit fixed line range -->
        <numberFormat pattern=""(\d{2})(\d{4})(\d{4})"" nationalPrefixFormattingRule=""$NP$FG""
                      nationalPrefixOptionalWhenFormatting=""true""
";
   "                      carrierCodeFormattingRule=""$CC $FG"">
          <leadingDigits>
            10|
            2(?:
              [02-57-9]|
              1[1-9]
            )
          </leadingDigits>
          <leadingDigits>
            10|
            2(?:
              [02-57-9]|
              1[1-9]
            )
          </leadingDigits>
          <leadingDigits>
            10[0-79]|
            2(?:
              [02-57-9]|
              1[1-79]
            )|
            (?:
              10|
              21
            )8(?:
              0[1-9]|
              [1-9]
            )
          </leadingDigits>
          <format>$1 $2 $3</format>
        </numberFormat>
        <!-- 10 digit fixed line range -->
        <numberFormat pattern=""(\d{3})(\d{3})(\d{4})"" nationalPrefixFormattingRule=""$NP$FG""
                      nationalPrefixOptionalWhenFormatting=""true""
                      carrierCodeFormattingRule=""$CC $FG"">
          <leadingDigits>
            3(?:
              [3-59]|
              7[02-68]
            )|
            4(?:
              [26-8]|
              3[3-9]|
              5[2-9]
            )|
            5(?:
              3[03-9]|
              [468]|
              7[028]|
              9[2-46-9]
            )|
            6|
            7(?:
              [0-247]|
              3[04-9]|
              5[0-4689]|
              6[2368]
            )|
            8(?:
              [1-358]|
              9[1-7]
            )|
            9(?:
              [013479]|
              5[1-5]
            )|
            (?:
              [34]1|
              55|
              79|
              87
            )[02-9]
          </leadingDigits>
          <format>$1 $2 $3</format>
        </numberFormat>
        <!-- 10-11 digit shared cost range -->
        <numberFormat pattern=""(\d{3})(\d{7,8})"">
          <leadingDigits>9</leadingDigits>
          <format>$1 $2</format>
        </numberFormat>
        <!-- 11 digit fixed line range -->
";
   "        <numberFormat pattern=""(\d{4})(\d{3})(\d{4})"" nationalPrefixFormattingRule=""$NP$FG""
                      nationalPrefixOptionalWhenFormatting=""true""
                      carrierCodeFormattingRule=""$CC $FG"">
          <leadingDigits>80</leadingDigits>
          <format>$1 $2 $3</format>
        </numberFormat>
        <!-- 11 digit fixed line range -->
        <numberFormat pattern=""(\d{3})(\d{4})(\d{4})"" nationalPrefixFormattingRule=""$NP$FG""
                      nationalPrefixOptionalWhenFormatting=""true""
                      carrierCodeFormattingRule=""$CC $FG"">
          <leadingDigits>[3-578]</leadingDigits>
          <format>$1 $2 $3</format>
        </numberFormat>
        <!-- Mobile range -->
        <numberFormat pattern=""(\d{3})(\d{4})(\d{4})"" carrierCodeFormattingRule=""$CC $FG"">
          <leadingDigits>1[3-9]</leadingDigits>
          <format>$1 $2 $3</format>
        </numberFormat>
        <!-- 12 digit toll free range -->
        <numberFormat pattern=""(\d{2})(\d{3})(\d{3})(\d{4})"" nationalPrefixFormattingRule=""$NP$FG""
                      nationalPrefixOptionalWhenFormatting=""true"">
          <leadingDigits>[12]</leadingDigits>
          <format>$1 $2 $3 $4</format>
        </numberFormat>
      </availableFormats>
      <generalDesc>
        <nationalNumberPattern>
          (?:
            (?:
              1[03-689]|
              2\d
            )\d\d|
            6
          )\d{8}|
          1\d{10}|
          [126]\d{6}(?:
            \d(?:
              \d{2}
            )?
          )?|
          86\d{5,6}|
          (?:
            [3-579]\d|
            8[0-57-9]
          )\d{5,9}
        </nationalNumberPattern>
      </generalDesc>
      <noInternationalDialling>
        <possibleLengths national=""[10-12]""/>
        <nationalNumberPattern>
          (?:
            (?:
              10|
              21
            )8|
            [48]
          )00\d{7}|
          950\d{7,8}
        </nationalNumberPattern>
      </noInternationalDialling>
";
   "      <!-- 0432 increased to 8 digits on October 24, 2009. 0791 increased to 8 digits on August
           28, 2011. 0551 increased to 8 digits and 0565 was cancelled on Dec 8, 2012. 0871
           increased to 8 digits on December 16, 2012. 0475 is the prefix for Tongliao but is not
           in the ITU data.
           10xxx, 123xx and 95xxx(x) numbers with area codes are also included here, as they
           behave exactly like fixed-line numbers. We don't support them for 4-digit area codes
           though, as they don't seem to be used there based on making actual phone calls. -->
      <fixedLine>
        <possibleLengths national=""[7-11]"" localOnly=""5,6""/>
        <exampleNumber>1012345678</exampleNumber>
        <nationalNumberPattern>
          (?:
            10(?:
              [02-79]\d\d|
              [18](?:
                0[1-9]|
                [1-9]\d
              )
            )|
            2(?:
              [02-57-9]\d{3}|
              1(?:
                [18](?:
                  0[1-9]|
                  [1-9]\d
                )|
                [2-79]\d\d
              )
            )|
            (?:
              41[03]|
              8078|
              9(?:
                78|
                94
              )
            )\d\d
          )\d{5}|
          (?:
            10|
            2[0-57-9]
          )(?:
            1(?:
              00|
              23
            )\d\d|
            95\d{3,4}
          )|
          (?:
            41[03]|
            9(?:
              78|
              94
            )
          )(?:
            100\d\d|
            95\d{3,4}
          )|
          8078123|
          (?:
            43[35]|
            754|
            851
          )\d{7,8}|
          (?:
            43[35]|
            754|
            851
          )(?:
            1(?:
              00\d|
              23
            )\d|
            95\d{3,4}
          )|
          (?:
            3(?:
              11|
              7[179]
";
   "            )|
            4(?:
              [15]1|
              3[12]
            )|
            5(?:
              1\d|
              2[37]|
              3[12]|
              51|
              7[13-79]|
              9[15]
            )|
            7(?:
              [39]1|
              5[57]|
              6[09]
            )|
            8(?:
              71|
              98
            )
          )(?:
            [02-8]\d{7}|
            1(?:
              0(?:
                0\d\d(?:
                  \d{3}
                )?|
                [1-9]\d{5}
              )|
              [13-9]\d{6}|
              2(?:
                [0-24-9]\d{5}|
                3\d(?:
                  \d{4}
                )?
              )
            )|
            9(?:
              [0-46-9]\d{6}|
              5\d{3}(?:
                \d(?:
                  \d{2}
                )?
              )?
            )
          )|
          (?:
            3(?:
              1[02-9]|
              35|
              49|
              5\d|
              7[02-68]|
              9[1-68]
            )|
            4(?:
              1[24-9]|
              2[179]|
              3[46-9]|
              5[2-9]|
              6[47-9]|
              7\d|
              8[23]
            )|
            5(?:
              3[03-9]|
              4[36]|
              5[02-9]|
              6[1-46]|
              7[028]|
              80|
              9[2-46-9]
            )|
            6(?:
              3[1-5]|
              6[0238]|
              9[12]
            )|
            7(?:
              01|
              [17]\d|
              2[248]|
              3[04-9]|
              4[3-6]|
              5[0-3689]|
              6[2368]|
              9[02-9]
            )|
            8(?:
              1[236-8]|
              2[5-7]|
              3\d|
              5[2-9]|
              7[02-9]|
              8[36-8]|
              9[1-7]
            )|
            9(?:
              0[1-3689]|
";
   "              1[1-79]|
              3\d|
              4[13]|
              5[1-5]|
              7[0-79]|
              9[0-35-9]
            )
          )(?:
            [02-8]\d{6}|
            1(?:
              0(?:
                0\d\d(?:
                  \d{2}
                )?|
                [1-9]\d{4}
              )|
              [13-9]\d{5}|
              2(?:
                [0-24-9]\d{4}|
                3\d(?:
                  \d{3}
                )?
              )
            )|
            9(?:
              [0-46-9]\d{5}|
              5\d{3,5}
            )
          )
        </nationalNumberPattern>
      </fixedLine>
      <!-- 170, 176 and 177 prefixes are introduced in early 2014 for 4G networks. ITU mentions 13
           digit 10647, 1440 and 10 digit 14[68] ranges as ""Non-geographic number, Mobile (IoT
           dedicated)"". Library does not support ""Internet of things (IoT)"" numbers which are
           generally used for communication between the devices. So we don't in";
   "clude 146 here at
           this ti";
   "me. -->
      <mobile>
        <possibleLengths national=""11""/>
        <exampleNumber>13123456789</exampleNumber>
        <nationalNumberPattern>
          1740[0-5]\d{6}|
          1(?:
            [38]\d|
            4[57]|
            [59][0-35-9]|
            6[25-7]|
            7[0-35-8]
          )\d{8}
        </nationalNumberPattern>
      </mobile>
      <!-- Toll free, premium rate, and VoIP numbers are not clearly de";
   "fined in the official Chinese
           number plan, and do not seem to have been standardized. The information below is
           collected fr";
   "om searching the web. 12 digit 800 numbers with area codes of Shanghai(21)
           and Beijing(10) are toll-free based on online references. -->
      <!-- http://en.wikipedia.org/wiki/Toll-free_telephone_number -->
      <tollFree>
        <possibleLengths national=""10,12""/>
        <exampleNumber>8001234567</exampleNumber>
        <nationalNumberPattern>
          (?:
";
   "            (?:
              10|
              21
            )8|
            8
          )00\d{7}
        </nationalNumberPattern>
      </tollFree>
      <premiumRate>
        <possibleLengths national=""8""/>
        <exampleNumber>16812345</exampleNumber>
        <nationalNumberPattern>16[08]\d{5}</nationalNumberPattern>
      </premiumRate>
      <!-- 96xxx(x) numbers with area codes are included here. Their costs are not well
           documented, but they are thought to be mostly lo";
   "cal costs with certain exceptions. We
           don't support them for 4-digit area codes though, as they don't seem to be used there
           based on online searches. -->
      <sharedCost>
        <possibleLengths national=""[7-11]"" localOnly=""5,6""/>
        <exampleNumber>4001234567</exampleNumber>
        <nationalNumberPattern>
          10(?:
            10\d{4}|
            96\d{3,4}
          )|
          400\d{7}|
          950\d{7,8}|
          (?:
            2[0-57-9]|
            3(?:
              [157]\d|
              35|
              49|
              9[1-68]
            )|
            4(?:
              [17]\d|
              2[179]|
              [35][1-9]|
              6[47-9]|
              8[23]
            )|
            5(?:
              [1357]\d|
              2[37]|
              4[36]|
              6[1-46]|
              80|
              9[1-9]
            )|
            6(?:
              3[1-5]|
              6[0238]|
              9[12]
            )|
            7(?:
              01|
              [1579]\d|
              2[248]|
              3[014-9]|
              4[3-6]|
              6[023689]
            )|
            8(?:
              1[236-8]|
              2[5-7]|
              [37]\d|
              5[14-9]|
              8[36-8]|
              9[1-8]
            )|
            9(?:
              0[1-3689]|
              1[1-79]|
              [379]\d|
              4[13]|
              5[1-5]
            )
          )96\d{3,4}
        </nationalNumberPattern>
";
   "      </sharedCost>
    </territory>"];
  ["

    <!-- Colombia (CO) -->
    <!-- http://www.itu.int/oth/T020200002C/en -->
    <!-- http://en.wikipedia.org/wiki/Telephone_numbers_in_Colombia -->
    <territory id=""CO"" countryCode=""57"" internationalPrefix=""00(?:4(?:[14]4|56)|[579])""
               nationalPrefix=""0"" nationalPrefixForParsing=""0([3579]|4(?:[14]4|56))?""
               mobileNumberPortableRegion=""true"">
      <availableFormats>
        <numberFormat pattern=""(\d{4})(\d{4})"">
          <leadingDigits>46</leadingDigits>
          <format>$1 $2</format>
        </numberFormat>
        <numberFormat pattern=""(\d{3})(\d{7})"" nationalPrefixFormattingRule=""($FG)""
                      carrierCodeFormattingRule=""$NP$CC $FG"">
          <leadingDigits>
            6|
            90
          </leadingDigits>
          <format>$1 $2</format>
        </numberFormat>
        <numberFormat pattern=""(\d{3})(\d{7})"" carrierCodeFormattingRule=""$NP$CC $FG"">
          <leadingDigits>
            3[0-357]|
            9[14]
          </leadingDigits>
          <format>$1 $2</format>
        </numberFormat>
        <numberFormat pattern=""(\d)(\d{3})(\d{7})"" nationalPrefixFormattingRule=""$NP$FG"">
          <leadingDigits>1</leadingDigits>
          <format>$1-$2-$3</format>
          <intlFormat>$1 $2 $3</intlFormat>
        </numberFormat>
      </availableFormats>
      <generalDesc>
        <nationalNumberPattern>
          (?:
            46|
            60\d\d
          )\d{6}|
          (?:
            1\d|
            [39]
          )\d{9}
        </nationalNumberPattern>
      </generalDesc>
      <fixedLine>
        <possibleLengths national=""8,10"" localOnly=""4,7""/>
        <exampleNumber>6012345678</exampleNumber>
        <nationalNumberPattern>
          601055(?:
            [0-4]\d|
            50
          )\d\d|
          6010(?:
            [0-4]\d|
            5[0-4]
          )\d{4}|
          (?:
            46|
            60(?:
              [18][1-9]|
              [24-7][2-9]
            )
          )\d{6}
";
   "        </nationalNumberPattern>
      </fixedLine>
      <!-- Added prefix 323 based on user report and online evidences. -->
      <mobile>
        <possibleLengths national=""10""/>
        <exampleNumber>3211234567</exampleNumber>
        <nationalNumberPattern>
          333301[0-5]\d{3}|
          3333(?:
            00|
            2[5-9]|
            [3-9]\d
          )\d{4}|
          (?:
            3(?:
              (?:
                0[0-5]|
                1\d|
                5[01]|
                70
              )\d|
              2(?:
                [0-3]\d|
                4[1-9]
              )|
              3(?:
                00|
                3[0-24-9]
              )
            )|
            9(?:
              101|
              408
            )
          )\d{6}
        </nationalNumberPattern>
      </mobile>
      <tollFree>
        <possibleLengths national=""11""/>
        <exampleNumber>18001234567</exampleNumber>
        <nationalNumberPattern>1800\d{7}</nationalNumberPattern>
      </tollFree>
      <premiumRate>
        <possibleLengths national=""10,11""/>
        <exampleNumber>19001234567</exampleNumber>
        <nationalNumberPattern>
          (?:
            19(?:
              0[01]|
              4[78]
            )|
            901
          )\d{7}
        </nationalNumberPattern>
      </premiumRate>
    </territory>"];
  ["

    <!-- Costa Rica (CR) -->
    <!-- http://www.itu.int/oth/T0202000030/en -->
    <!-- http://en.wikipedia.org/wiki/Telephone_numbers_in_Costa_Rica -->
    <territory id=""CR"" countryCode=""506"" internationalPrefix=""00""
               nationalPrefixForParsing=""(19(?:0[0-2468]|1[09]|20|66|77|99))"">
      <availableFormats>
        <numberFormat pattern=""(\d{4})(\d{4})"" carrierCodeFormattingRule=""$CC $FG"">
          <leadingDigits>
            [2-7]|
            8[3-9]
          </leadingDigits>
          <format>$1 $2</format>
        </numberFormat>
        <numberFormat pattern=""(\d{3})(\d{3})(\d{4})"" carrierCodeFormattingRule=""$CC $FG"">
          <leadingDigits>[89]</leadingDigits>
          <format>$1-$2-$3</format>
        </numberFormat>
      </availableFormats>
      <generalDesc>
        <nationalNumberPattern>
          (?:
            8\d|
            90
          )\d{8}|
          (?:
            [24-8]\d{3}|
            3005
          )\d{4}
        </nationalNumberPattern>
      </generalDesc>
      <!-- Added prefix 20 and 21 found online. Care must be taken to avoid overlapping with
           210[0-6]xxxx, which is clearly marked as VOIP in the ITU document. -->
      <fixedLine>
        <possibleLengths national=""8""/>
        <exampleNumber>22123456</exampleNumber>
        <nationalNumberPattern>
          210[7-9]\d{4}|
          2(?:
            [024-7]\d|
            1[1-9]
          )\d{5}
        </nationalNumberPattern>
      </fixedLine>
      <mobile>
        <possibleLengths national=""8""/>
        <exampleNumber>83123456</exampleNumber>
        <nationalNumberPattern>
          (?:
            3005\d|
            6500[01]
          )\d{3}|
          (?:
            5[07]|
            6[0-4]|
            7[0-3]|
            8[3-9]
          )\d{6}
        </nationalNumberPattern>
      </mobile>
      <tollFree>
        <possibleLengths national=""10""/>
        <exampleNumber>8001234567</exampleNumber>
        <nationalNumberPattern>800\d{7}</nationalNumberPattern>
";
   "      </tollFree>
      <!-- Includes ""mass calls"" numbers with prefix 905. -->
      <premiumRate>
        <possibleLengths national=""10""/>
        <exampleNumber>9001234567</exampleNumber>
        <nationalNumberPattern>90[059]\d{7}</nationalNumberPattern>
      </premiumRate>
      <!-- Including trunking service numbers starting with 5100. -->
      <!-- Prefixes for VOIP simplified fr";
   "om wikipedia 4xxx xxxx -->
      <!-- Prefix 210x xxxx present before, taken fr";
   "om ITU doc -->
      <voip>
        <possibleLengths national=""8""/>
        <exampleNumber>40001234</exampleNumber>
        <nationalNumberPattern>
          (?:
            210[0-6]|
            4\d{3}|
            5100
          )\d{4}
        </nationalNumberPattern>
      </voip>
    </territory>"];
  ["

    <!-- Cuba (CU) -->
    <!-- http://www.itu.int/oth/T0202000033/en -->
    <territory id=""CU"" countryCode=""53"" internationalPrefix=""119"" nationalPrefix=""0"">
      <availableFormats>
        <numberFormat pattern=""(\d{2})(\d{4,6})"" nationalPrefixFormattingRule=""($NP$FG)"">
          <leadingDigits>
            2[1-4]|
            [34]
          </leadingDigits>
          <format>$1 $2</format>
        </numberFormat>
        <numberFormat pattern=""(\d)(\d{6,7})"" nationalPrefixFormattingRule=""($NP$FG)"">
          <leadingDigits>7</leadingDigits>
          <format>$1 $2</format>
        </numberFormat>
        <numberFormat pattern=""(\d)(\d{7})"" nationalPrefixFormattingRule=""$NP$FG"">
          <leadingDigits>[56]</leadingDigits>
          <format>$1 $2</format>
        </numberFormat>
        <numberFormat pattern=""(\d{3})(\d{7})"" nationalPrefixFormattingRule=""$NP$FG"">
          <leadingDigits>8</leadingDigits>
          <format>$1 $2</format>
        </numberFormat>
      </availableFormats>
      <generalDesc>
        <nationalNumberPattern>
          (?:
            [2-7]|
            8\d\d
          )\d{7}|
          [2-47]\d{6}|
          [34]\d{5}
        </nationalNumberPattern>
      </generalDesc>
      <!-- Based on one of the data sources, 80[25] and 878 ranges are fixed-line as per
           Government docs, though no other references are found. -->
      <fixedLine>
        <possibleLengths national=""[6-8],10"" localOnly=""4,5""/>
        <exampleNumber>71234567</exampleNumber>
        <nationalNumberPattern>
          (?:
            3[23]|
            4[89]
          )\d{4,6}|
          (?:
            31|
            4[36]|
            8(?:
              0[25]|
              78
            )\d
          )\d{6}|
          (?:
            2[1-4]|
            4[1257]|
            7\d
          )\d{5,6}
        </nationalNumberPattern>
      </fixedLine>
      <mobile>
        <possibleLengths national=""8""/>
        <exampleNumber>51234567</exampleNumber>
";
   "        <nationalNumberPattern>
          (?:
            5\d|
            6[2-4]
          )\d{6}
        </nationalNumberPattern>
      </mobile>
      <tollFree>
        <possibleLengths national=""10""/>
        <exampleNumber>8001234567</exampleNumber>
        <nationalNumberPattern>800\d{7}</nationalNumberPattern>
      </tollFree>
      <sharedCost>
        <possibleLengths national=""10""/>
        <exampleNumber>8071234567</exampleNumber>
        <nationalNumberPattern>807\d{7}</nationalNumberPattern>
      </sharedCost>
    </territory>"];
  ["

    <!-- Cape Verde (CV) -->
    <!-- http://www.itu.int/oth/T0202000026/en -->
    <territory id=""CV"" countryCode=""238"" internationalPrefix=""0"">
      <availableFormats>
        <numberFormat pattern=""(\d{3})(\d{2})(\d{2})"">
          <leadingDigits>[2-589]</leadingDigits>
          <format>$1 $2 $3</format>
        </numberFormat>
      </availableFormats>
      <generalDesc>
        <nationalNumberPattern>
          (?:
            [2-59]\d\d|
            800
          )\d{4}
        </nationalNumberPattern>
      </generalDesc>
      <fixedLine>
        <possibleLengths national=""7""/>
        <exampleNumber>2211234</exampleNumber>
        <nationalNumberPattern>
          2(?:
            2[1-7]|
            3[0-8]|
            4[12]|
            5[1256]|
            6\d|
            7[1-3]|
            8[1-5]
          )\d{4}
        </nationalNumberPattern>
      </fixedLine>
      <!-- It seems, contrary to their numbering plan, the entire 9X range is used for mobile
           phones. SMS messages has been successfully sent to numbers starting with 95 and 97 for
           example, and there are plenty of numbers on the internet that start with these
           prefixes. -->
      <mobile>
        <possibleLengths national=""7""/>
        <exampleNumber>9911234</exampleNumber>
        <nationalNumberPattern>
          (?:
            36|
            5[1-389]|
            9\d
          )\d{5}
        </nationalNumberPattern>
      </mobile>
      <tollFree>
        <possibleLengths national=""7""/>
        <exampleNumber>8001234</exampleNumber>
        <nationalNumberPattern>800\d{4}</nationalNumberPattern>
      </tollFree>
      <voip>
        <possibleLengths national=""7""/>
        <exampleNumber>3401234</exampleNumber>
        <nationalNumberPattern>
          (?:
            3[3-5]|
            4[356]
          )\d{5}
        </nationalNumberPattern>
      </voip>
    </territory>"];
  ["

    <!-- Curaçao (CW) -->
    <!-- Main region for 'BQ' -->
    <!-- http://www.itu.int/oth/T02020000F5/en -->
    <!-- All the formatting patterns for country-code 599 are here. -->
    <territory id=""CW"" mainCountryForCode=""true"" countryCode=""599"" leadingDigits=""[69]""
               internationalPrefix=""00"">
      <availableFormats>
        <numberFormat pattern=""(\d{3})(\d{4})"">
          <leadingDigits>[3467]</leadingDigits>
          <format>$1 $2</format>
        </numberFormat>
        <numberFormat pattern=""(\d)(\d{3})(\d{4})"">
          <leadingDigits>9[4-8]</leadingDigits>
          <format>$1 $2 $3</format>
        </numberFormat>
      </availableFormats>
      <generalDesc>
        <nationalNumberPattern>
          (?:
            [34]1|
            60|
            (?:
              7|
              9\d
            )\d
          )\d{5}
        </nationalNumberPattern>
      </generalDesc>
      <fixedLine>
        <possibleLengths national=""7,8""/>
        <exampleNumber>94351234</exampleNumber>
        <nationalNumberPattern>
          9(?:
            4(?:
              3[0-5]|
              4[14]|
              6\d
            )|
            50\d|
            7(?:
              2[014]|
              3[02-9]|
              4[4-9]|
              6[357]|
              77|
              8[7-9]
            )|
            8(?:
              3[39]|
              [46]\d|
              7[01]|
              8[57-9]
            )
          )\d{4}
        </nationalNumberPattern>
      </fixedLine>
      <mobile>
        <possibleLengths national=""7,8""/>
        <exampleNumber>95181234</exampleNumber>
        <nationalNumberPattern>
          953[01]\d{4}|
          9(?:
            5[12467]|
            6[5-9]
          )\d{5}
        </nationalNumberPattern>
      </mobile>
      <pager>
        <possibleLengths national=""8""/>
        <exampleNumber>95581234</exampleNumber>
        <nationalNumberPattern>955\d{5}</nationalNumberPattern>
      </pager>
      <!-- Value-added services are lumped together under shared cost, since we are not sure
";
   "           exactly what they are. -->
      <sharedCost>
        <possibleLengths national=""7""/>
        <exampleNumber>6001234</exampleNumber>
        <nationalNumberPattern>60[0-2]\d{4}</nationalNumberPattern>
      </sharedCost>
    </territory>"];
  ["

    <!-- Christmas Island (CX) -->
    <!-- Calling code and formatting shared with 'AU' -->
    <!-- References state Christmas Islands have fixed line numbers starting +61 8 9164. -->
    <!-- http://en.wikipedia.org/wiki/List_of_country_calling_codes -->
    <!-- http://en.wikipedia.org/wiki/Telephone_numbers_in_Australia -->
    <!-- https://www.thenumberingsystem.com.au/#/number-register/search -->
    <territory id=""CX"" countryCode=""61"" preferredInternationalPrefix=""0011""
               internationalPrefix=""001[14-689]|14(?:1[14]|34|4[17]|[56]6|7[47]|88)0011""
               nationalPrefix=""0"" nationalPrefixForParsing=""([59]\d{7})$|0""
               nationalPrefixTransformRule=""8$1"">
      <generalDesc>
        <nationalNumberPattern>
          1(?:
            [0-79]\d{8}(?:
              \d{2}
            )?|
            8[0-24-9]\d{7}
          )|
          [148]\d{8}|
          1\d{5,7}
        </nationalNumberPattern>
      </generalDesc>
      <fixedLine>
        <possibleLengths national=""9"" localOnly=""8""/>
        <exampleNumber>891641234</exampleNumber>
        <nationalNumberPattern>
          8(?:
            51(?:
              0(?:
                01|
                30|
                59|
                88
              )|
              1(?:
                17|
                46|
                75
              )|
              2(?:
                22|
                35
              )
            )|
            91(?:
              00[6-9]|
              1(?:
                [28]1|
                49|
                78
              )|
              2(?:
                09|
                63
              )|
              3(?:
                12|
                26|
                75
              )|
              4(?:
                56|
                97
              )|
              64\d|
              7(?:
                0[01]|
                1[0-2]
              )|
              958
            )
          )\d{3}
        </nationalNumberPattern>
";
   "      </fixedLine>
      <!-- Mobile, toll free, premium rate and VOIP copied fr";
   "om Australia. -->
      <mobile>
        <possibleLengths national=""9""/>
        <exampleNumber>412345678</exampleNumber>
        <nationalNumberPattern>
          4(?:
            79[01]|
            83[0-36-9]|
            95[0-3]
          )\d{5}|
          4(?:
            [0-36]\d|
            4[047-9]|
            [58][0-24-9]|
            7[02-8]|
            9[0-47-9]
          )\d{6}
        </nationalNumberPattern>
      </mobile>
      <tollFree>
        <possibleLengths national=""7,10""/>
        <exampleNumber>1800123456</exampleNumber>
        <nationalNumberPattern>
          180(?:
            0\d{3}|
            2
          )\d{3}
        </nationalNumberPattern>
      </tollFree>
      <premiumRate>
        <possibleLengths national=""10""/>
        <exampleNumber>1900123456</exampleNumber>
        <nationalNumberPattern>190[0-26]\d{6}</nationalNumberPattern>
      </premiumRate>
      <!-- Lo";
   "cal-rate (SmartNumbers) are put here because they are a reverse-charge network,
           although they charge a small lo";
   "cal call connect fee (around 25c). These start with 13
           or 1300. -->
      <sharedCost>
        <possibleLengths national=""6,8,10,12""/>
        <exampleNumber>1300123456</exampleNumber>
        <nationalNumberPattern>
          13(?:
            00\d{6}(?:
              \d{2}
            )?|
            45[0-4]\d{3}
          )|
          13\d{4}
        </nationalNumberPattern>
      </sharedCost>
      <voip>
        <possibleLengths national=""9""/>
        <exampleNumber>147101234</exampleNumber>
        <nationalNumberPattern>
          14(?:
            5(?:
              1[0458]|
              [23][458]
            )|
            71\d
          )\d{4}
        </nationalNumberPattern>
      </voip>
    </territory>"];
  ["

    <!-- Cyprus (CY) -->
    <!-- http://www.itu.int/oth/T0202000034/en -->
    <territory id=""CY"" countryCode=""357"" internationalPrefix=""00"" mobileNumberPortableRegion=""true"">
      <availableFormats>
        <!-- Format fr";
   "om http://www.cyprusyellowpages.com -->
        <numberFormat pattern=""(\d{2})(\d{6})"">
          <leadingDigits>[257-9]</leadingDigits>
          <format>$1 $2</format>
        </numberFormat>
      </availableFormats>
      <generalDesc>
        <nationalNumberPattern>
          (?:
            [279]\d|
            [58]0
          )\d{6}
        </nationalNumberPattern>
      </generalDesc>
      <fixedLine>
        <possibleLengths national=""8""/>
        <exampleNumber>22345678</exampleNumber>
        <nationalNumberPattern>2[2-6]\d{6}</nationalNumberPattern>
      </fixedLine>
      <!-- Includes paging numbers (they are mixed into the same block). -->
      <mobile>
        <possibleLengths national=""8""/>
        <exampleNumber>96123456</exampleNumber>
        <nationalNumberPattern>
          9(?:
            10|
            [4-79]\d
          )\d{5}
        </nationalNumberPattern>
      </mobile>
      <tollFree>
        <possibleLengths national=""8""/>
        <exampleNumber>80001234</exampleNumber>
        <nationalNumberPattern>800\d{5}</nationalNumberPattern>
      </tollFree>
      <premiumRate>
        <possibleLengths national=""8""/>
        <exampleNumber>90012345</exampleNumber>
        <nationalNumberPattern>90[09]\d{5}</nationalNumberPattern>
      </premiumRate>
      <sharedCost>
        <possibleLengths national=""8""/>
        <exampleNumber>80112345</exampleNumber>
        <nationalNumberPattern>80[1-9]\d{5}</nationalNumberPattern>
      </sharedCost>
      <personalNumber>
        <possibleLengths national=""8""/>
        <exampleNumber>70012345</exampleNumber>
        <nationalNumberPattern>700\d{5}</nationalNumberPattern>
      </personalNumber>
      <!-- Using for Corporate Network numbers and Universal Service numbers. -->
";
   "      <uan>
        <possibleLengths national=""8""/>
        <exampleNumber>77123456</exampleNumber>
        <nationalNumberPattern>
          (?:
            50|
            77
          )\d{6}
        </nationalNumberPattern>
      </uan>
    </territory>"];
  ["

    <!-- Czechia (CZ) -->
    <!-- http://www.itu.int/oth/T0202000035/en -->
    <!-- http://en.wikipedia.org/wiki/%2B420 -->
    <territory id=""CZ"" countryCode=""420"" internationalPrefix=""00"" mobileNumberPortableRegion=""true"">
      <availableFormats>
        <numberFormat pattern=""(\d{3})(\d{3})(\d{3})"">
          <leadingDigits>
            [2-8]|
            9[015-7]
          </leadingDigits>
          <format>$1 $2 $3</format>
        </numberFormat>
        <numberFormat pattern=""(\d{2})(\d{3})(\d{3})(\d{2})"">
          <leadingDigits>96</leadingDigits>
          <format>$1 $2 $3 $4</format>
        </numberFormat>
        <numberFormat pattern=""(\d{2})(\d{3})(\d{3})(\d{3})"">
          <leadingDigits>9</leadingDigits>
          <format>$1 $2 $3 $4</format>
        </numberFormat>
        <numberFormat pattern=""(\d{3})(\d{3})(\d{3})(\d{3})"">
          <leadingDigits>9</leadingDigits>
          <format>$1 $2 $3 $4</format>
        </numberFormat>
      </availableFormats>
      <generalDesc>
        <nationalNumberPattern>
          (?:
            [2-578]\d|
            60
          )\d{7}|
          9\d{8,11}
        </nationalNumberPattern>
      </generalDesc>
      <fixedLine>
        <possibleLengths national=""9""/>
        <exampleNumber>212345678</exampleNumber>
        <nationalNumberPattern>
          (?:
            2\d|
            3[1257-9]|
            4[16-9]|
            5[13-9]
          )\d{7}
        </nationalNumberPattern>
      </fixedLine>
      <mobile>
        <possibleLengths national=""9""/>
        <exampleNumber>601123456</exampleNumber>
        <nationalNumberPattern>
          7060\d{5}|
          (?:
            60[1-8]|
            7(?:
              0[2-5]|
              19|
              [2379]\d
            )
          )\d{6}
        </nationalNumberPattern>
      </mobile>
      <tollFree>
        <possibleLengths national=""9""/>
        <exampleNumber>800123456</exampleNumber>
        <nationalNumberPattern>800\d{6}</nationalNumberPattern>
";
   "      </tollFree>
      <!-- Includes premium rate dial-up. -->
      <premiumRate>
        <possibleLengths national=""9""/>
        <exampleNumber>900123456</exampleNumber>
        <nationalNumberPattern>
          9(?:
            0[05689]|
            76
          )\d{6}
        </nationalNumberPattern>
      </premiumRate>
      <sharedCost>
        <possibleLengths national=""9""/>
        <exampleNumber>811234567</exampleNumber>
        <nationalNumberPattern>8[134]\d{7}</nationalNumberPattern>
      </sharedCost>
      <personalNumber>
        <possibleLengths national=""9""/>
        <exampleNumber>700123456</exampleNumber>
        <nationalNumberPattern>70[01]\d{6}</nationalNumberPattern>
      </personalNumber>
      <voip>
        <possibleLengths national=""9""/>
        <exampleNumber>910123456</exampleNumber>
        <nationalNumberPattern>9[17]0\d{6}</nationalNumberPattern>
      </voip>
      <!-- Numbers belonging to private communication networks are included here. These are
           classified as Institutional networks, belonging to institutions like the police, armed
           forces and railways, along with a couple of formerly government-owned banks. These
           numbers are reachable by the public. -->
      <uan>
        <possibleLengths national=""9""/>
        <exampleNumber>972123456</exampleNumber>
        <nationalNumberPattern>
          9(?:
            5\d|
            7[2-4]
          )\d{6}
        </nationalNumberPattern>
      </uan>
      <voicemail>
        <possibleLengths national=""[9-12]""/>
        <exampleNumber>93123456789</exampleNumber>
        <nationalNumberPattern>
          9(?:
            3\d{9}|
            6\d{7,10}
          )
        </nationalNumberPattern>
      </voicemail>
    </territory>"];
  ["

    <!-- Germany (DE) -->
    <!-- http://www.itu.int/oth/T0202000051/en -->
    <!-- http://en.wikipedia.org/wiki/Telephone_numbers_in_germany -->
    <!-- Due to the high complexity of ranges in the German numbering scheme, the regular
         expressions here have been automatically simplified to reduce size. This means that
         in some cases there may be false positives (especially in fixed line ranges), but since
         German ranges differ so much by length anyway, false positives are already common. -->
    <territory id=""DE"" countryCode=""49"" internationalPrefix=""00"" nationalPrefix=""0""
               mobileNumberPortableRegion=""true"">
      <availableFormats>
        <!-- Fixed line, 2 digit area codes. -->
        <numberFormat pattern=""(\d{2})(\d{3,13})"" nationalPrefixFormattingRule=""$NP$FG"">
          <leadingDigits>
            3[02]|
            40|
            [68]9
          </leadingDigits>
          <format>$1 $2</format>
        </numberFormat>
        <!-- Short code with 6 digit length -->
        <numberFormat pattern=""(\d{6})"">
          <leadingDigits>227</leadingDigits>
          <leadingDigits>2277</leadingDigits>
          <format>$1</format>
          <intlFormat>NA</intlFormat>
        </numberFormat>
        <!-- Fixed line, 3 digit area codes. -->
        <numberFormat pattern=""(\d{3})(\d{3,12})"" nationalPrefixFormattingRule=""$NP$FG"">
          <leadingDigits>
            2(?:
              0[1-389]|
              1[124]|
              2[18]|
              3[14]
            )|
            3(?:
              [35-9][15]|
              4[015]
            )|
            906|
            (?:
              2[4-9]|
              4[2-9]|
              [579][1-9]|
              [68][1-8]
            )1
          </leadingDigits>
          <leadingDigits>
            2(?:
              0[1-389]|
              12[0-8]
            )|
            3(?:
              [35-9][15]|
              4[015]
            )|
            906|
            2(?:
";
   "              [13][14]|
              2[18]
            )|
            (?:
              2[4-9]|
              4[2-9]|
              [579][1-9]|
              [68][1-8]
            )1
          </leadingDigits>
          <format>$1 $2</format>
        </numberFormat>
        <!-- Fixed line, 4 digit area codes. Only area code 5361 has two digit subscriber numbers. -->
        <numberFormat pattern=""(\d{4})(\d{2,11})"" nationalPrefixFormattingRule=""$NP$FG"">
          <leadingDigits>
            [24-6]|
            3(?:
              [3569][02-46-9]|
              4[2-4679]|
              7[2-467]|
              8[2-46-8]
            )|
            70[2-8]|
            8(?:
              0[2-9]|
              [1-8]
            )|
            90[7-9]|
            [79][1-9]
          </leadingDigits>
          <leadingDigits>
            [24-6]|
            3(?:
              3(?:
                0[1-467]|
                2[127-9]|
                3[124578]|
                7[1257-9]|
                8[1256]|
                9[145]
              )|
              4(?:
                2[135]|
                4[13578]|
                9[1346]
              )|
              5(?:
                0[14]|
                2[1-3589]|
                6[1-4]|
                7[13468]|
                8[13568]
              )|
              6(?:
                2[1-489]|
                3[124-6]|
                6[13]|
                7[12579]|
                8[1-356]|
                9[135]
              )|
              7(?:
                2[1-7]|
                4[145]|
                6[1-5]|
                7[1-4]
              )|
              8(?:
                21|
                3[1468]|
                6|
                7[1467]|
                8[136]
              )|
              9(?:
                0[12479]|
                2[1358]|
                4[134679]|
                6[1-9]|
                7[136]|
                8[147]|
                9[1468]
              )
";
   "            )|
            70[2-8]|
            8(?:
              0[2-9]|
              [1-8]
            )|
            90[7-9]|
            [79][1-9]|
            3[68]4[1347]|
            3(?:
              47|
              60
            )[1356]|
            3(?:
              3[46]|
              46|
              5[49]
            )[1246]|
            3[4579]3[1357]
          </leadingDigits>
          <format>$1 $2</format>
        </numberFormat>
        <!-- Short shared cost numbers. -->
        <numberFormat pattern=""(\d{3})(\d{4})"" nationalPrefixFormattingRule=""$NP$FG"">
          <leadingDigits>138</leadingDigits>
          <format>$1 $2</format>
        </numberFormat>
        <!-- Fixed line, 5 digit area codes. -->
        <numberFormat pattern=""(\d{5})(\d{2,10})"" nationalPrefixFormattingRule=""$NP$FG"">
          <leadingDigits>3</leadingDigits>
          <format>$1 $2</format>
        </numberFormat>
        <!-- UAN (181) numbers. -->
        <numberFormat pattern=""(\d{3})(\d{5,11})"" nationalPrefixFormattingRule=""$NP$FG"">
          <leadingDigits>181</leadingDigits>
          <format>$1 $2</format>
        </numberFormat>
        <!-- Premium rate and shared cost numbers. -->
        <numberFormat pattern=""(\d{3})(\d)(\d{4,10})"" nationalPrefixFormattingRule=""$NP$FG"">
          <leadingDigits>
            1(?:
              3|
              80
            )|
            9
          </leadingDigits>
          <format>$1 $2 $3</format>
        </numberFormat>
        <!-- Mobile/pager format (fr";
   "om ITU document). Actual usage varies. -->
        <numberFormat pattern=""(\d{3})(\d{7,8})"" nationalPrefixFormattingRule=""$NP$FG"">
          <leadingDigits>1[67]</leadingDigits>
          <format>$1 $2</format>
        </numberFormat>
        <!-- Toll free (800) numbers. -->
        <numberFormat pattern=""(\d{3})(\d{7,12})"" nationalPrefixFormattingRule=""$NP$FG"">
          <leadingDigits>8</leadingDigits>
          <format>$1 $2</format>
        </numberFormat>
";
   "        <!-- Where we have seen prefixes in use for the IVPN/User Group numbers, we format it the
             way it is generally written. For other prefixes, we fall ba";
   "ck to using a three-digit
             prefix since we have currently no more information to allow us to format these more
             precisely. -->
        <numberFormat pattern=""(\d{5})(\d{6})"" nationalPrefixFormattingRule=""$NP$FG"">
          <leadingDigits>185</leadingDigits>
          <leadingDigits>1850</leadingDigits>
          <leadingDigits>18500</leadingDigits>
          <format>$1 $2</format>
        </numberFormat>
        <!-- Personal numbers. -->
        <numberFormat pattern=""(\d{3})(\d{4})(\d{4})"" nationalPrefixFormattingRule=""$NP$FG"">
          <leadingDigits>7</leadingDigits>
          <format>$1 $2 $3</format>
        </numberFormat>
        <!-- Various UAN numbers. -->
        <numberFormat pattern=""(\d{4})(\d{7})"" nationalPrefixFormattingRule=""$NP$FG"">
          <leadingDigits>18[68]</leadingDigits>
          <format>$1 $2</format>
        </numberFormat>
        <!-- Mobile format for 15x mobile numbers. -->
        <numberFormat pattern=""(\d{4})(\d{7})"" nationalPrefixFormattingRule=""$NP$FG"">
          <leadingDigits>15[1279]</leadingDigits>
          <format>$1 $2</format>
        </numberFormat>
        <!-- Some mobile numbers (carrier services etc..) have a 6 digit NSN and need to be formatted
             with 5 leading digits (as opposed to the 4.7 format).
             These are all in the ranges 150, 155, 156 and 158. -->
        <numberFormat pattern=""(\d{5})(\d{6})"" nationalPrefixFormattingRule=""$NP$FG"">
          <leadingDigits>15[03568]</leadingDigits>
          <leadingDigits>
            15(?:
              [0568]|
              3[13]
            )
          </leadingDigits>
          <format>$1 $2</format>
        </numberFormat>
        <!-- Various UAN numbers. -->
        <numberFormat pattern=""(\d{3})(\d{8})"" nationalPrefixFormattingRule=""$NP$FG"">
          <leadingDigits>18</leadingDigits>
";
   "          <format>$1 $2</format>
        </numberFormat>
        <!-- Voicemail. -->
        <numberFormat pattern=""(\d{3})(\d{2})(\d{7,8})"" nationalPrefixFormattingRule=""$NP$FG"">
          <leadingDigits>
            1(?:
              6[023]|
              7
            )
          </leadingDigits>
          <format>$1 $2 $3</format>
        </numberFormat>
        <!-- Voicemail. -->
        <numberFormat pattern=""(\d{4})(\d{2})(\d{7})"" nationalPrefixFormattingRule=""$NP$FG"">
          <leadingDigits>15[279]</leadingDigits>
          <format>$1 $2 $3</format>
        </numberFormat>
        <!-- Voicemail. -->
        <numberFormat pattern=""(\d{3})(\d{2})(\d{8})"" nationalPrefixFormattingRule=""$NP$FG"">
          <leadingDigits>15</leadingDigits>
          <format>$1 $2 $3</format>
        </numberFormat>
      </availableFormats>
      <generalDesc>
        <nationalNumberPattern>
          [2579]\d{5,14}|
          49(?:
            [34]0|
            69|
            8\d
          )\d\d?|
          49(?:
            37|
            49|
            60|
            7[089]|
            9\d
          )\d{1,3}|
          49(?:
            2[024-9]|
            3[2-689]|
            7[1-7]
          )\d{1,8}|
          (?:
            1|
            [368]\d|
            4[0-8]
          )\d{3,13}|
          49(?:
            [015]\d|
            2[13]|
            31|
            [46][1-8]
          )\d{1,9}
        </nationalNumberPattern>
      </generalDesc>
      <!-- The German ITU numbering plan gives overly simplistic minimum/maximum
           lengths for number ranges. This would (if taken literally) result in 1 or 2 length
           subscriber numbers. However, a contact of the German numbering authority
           confirmed that subscriber numbers can never be shorter than 2-digit and total
           length can not be less than 6 digits. Prefix 4921 of length 13-digit is added
           based on user report. Prefix 322 of length 9-digits is added based on user report. -->
";
   "      <!-- Maximum lengths of German numbers are generally undefined, since any subscriber
           number can connect to a private exchange (PABX), which can consume additionally
           dialled digits (e.g. for calling individual rooms in a hotel directly). This means that in
           almost all cases the maximum length of a fixed line range is 15 (the maximum de";
   "fined
           by E.164). However there is one very special exception to this; the ""49"" area code.
           This needs to be shorter to avoid range lengths overlapping which would otherwise
           cause issues in parsing (since 49 is both an area code and the country calling code). -->
      <fixedLine>
        <possibleLengths national=""[5-15]"" localOnly=""[2-4]""/>
        <exampleNumber>30123456</exampleNumber>
        <nationalNumberPattern>
          32\d{9,11}|
          49[1-6]\d{10}|
          322\d{6}|
          49[0-7]\d{3,9}|
          (?:
            [34]0|
            [68]9
          )\d{3,13}|
          (?:
            2(?:
              0[1-689]|
              [1-3569]\d|
              4[0-8]|
              7[1-7]|
              8[0-7]
            )|
            3(?:
              [3569]\d|
              4[0-79]|
              7[1-7]|
              8[1-8]
            )|
            4(?:
              1[02-9]|
              [2-48]\d|
              5[0-6]|
              6[0-8]|
              7[0-79]
            )|
            5(?:
              0[2-8]|
              [124-6]\d|
              [38][0-8]|
              [79][0-7]
            )|
            6(?:
              0[02-9]|
              [1-358]\d|
              [47][0-8]|
              6[1-9]
            )|
            7(?:
              0[2-8]|
              1[1-9]|
              [27][0-7]|
              3\d|
              [4-6][0-8]|
              8[0-5]|
              9[013-7]
            )|
            8(?:
              0[2-9]|
              1[0-79]|
              2\d|
              3[0-46-9]|
              4[0-6]|
              5[013-9]|
";
   "              6[1-8]|
              7[0-8]|
              8[0-24-6]
            )|
            9(?:
              0[6-9]|
              [1-4]\d|
              [589][0-7]|
              6[0-8]|
              7[0-467]
            )
          )\d{3,12}
        </nationalNumberPattern>
      </fixedLine>
      <!-- According to
           http://www.bundesnetzagentur.de/SharedDocs/Downloads/DE/BNetzA/Sachgebiete/Telekommunikation/Regulierung/Nummernverwaltung/Mobilfunkdienste/NummernplanMobileDienstepdf.pdf?__blob=publicationFile
           numbers beginning with 162, 163 and 17 can all be 10 or 11 digits long.
           The ranges 15[056] have been removed fr";
   "om the ITU doc, but information found online
           indicates that they may still be working.
           Note corresponding voicemail prefixes should be updated as well if new prefixes are
           added to this se";
   "ction. -->
      <mobile>
        <possibleLengths national=""10,11""/>
        <exampleNumber>15123456789</exampleNumber>
        <nationalNumberPattern>
          1(?:
            6[023]|
            7\d
          )\d{7,8}|
          15(?:
            [0-25-9]\d\d|
            3(?:
              10|
              33
            )
          )\d{6}
        </nationalNumberPattern>
      </mobile>
      <pager>
        <possibleLengths national=""[4-14]""/>
        <exampleNumber>16412345</exampleNumber>
        <nationalNumberPattern>
          16(?:
            4\d{1,10}|
            [89]\d{1,11}
          )
        </nationalNumberPattern>
      </pager>
      <tollFree>
        <possibleLengths national=""[10-15]""/>
        <exampleNumber>8001234567890</exampleNumber>
        <nationalNumberPattern>800\d{7,12}</nationalNumberPattern>
      </tollFree>
      <!-- Includes the more expensive of the ""televoting"" line numbers. See the shared cost
           se";
   "ction for more information. -->
      <premiumRate>
        <possibleLengths national=""10,11""/>
        <exampleNumber>9001234567</exampleNumber>
        <nationalNumberPattern>
";
   "          (?:
            137[7-9]|
            900(?:
              [135]|
              9\d
            )
          )\d{6}
        </nationalNumberPattern>
      </premiumRate>
      <!-- Includes some mass-traffic numbers, used for e.g. phone voting, raffles, since their
           costs when dialling fr";
   "om a fixed-line phone is similar.
           Prices:
           http://www.billiger-telefonieren.de/0180-0137-0900-sonderrufnummern/
           Documentation:
           http://www.bundesnetzagentur.de/SharedDocs/Downloads/DE/Sachgebiete/Telekommunikation/Unternehmen_Institutionen/Nummerierung/Rufnummern/0137/0137_Nummernplan.pdf?__blob=publicationFile&v=2 -->
      <sharedCost>
        <possibleLengths national=""[7-14]""/>
        <exampleNumber>18012345</exampleNumber>
        <nationalNumberPattern>
          180\d{5,11}|
          13(?:
            7[1-6]\d\d|
            8
          )\d{4}
        </nationalNumberPattern>
      </sharedCost>
      <personalNumber>
        <possibleLengths national=""11""/>
        <exampleNumber>70012345678</exampleNumber>
        <nationalNumberPattern>700\d{8}</nationalNumberPattern>
      </personalNumber>
      <!-- Using UAN for numbers marked in the plan as being assigned to International Virtual
           Private Networks (0181) and User Groups (018[2-9]). These seem in practice to be assigned
           to companies. More information here: http://de.wikipedia.org/wiki/Vorwahl_01 -->
      <uan>
        <possibleLengths national=""[8-14]""/>
        <exampleNumber>18500123456</exampleNumber>
        <nationalNumberPattern>
          18(?:
            1\d{5,11}|
            [2-9]\d{8}
          )
        </nationalNumberPattern>
      </uan>
      <!-- Note corresponding mobile prefixes should be updated as well if new prefixes are added
           to this se";
   "ction. -->
      <voicemail>
        <possibleLengths national=""12,13""/>
        <exampleNumber>177991234567</exampleNumber>
        <nationalNumberPattern>
          1(?:
";
   "            6(?:
              013|
              255|
              399
            )|
            7(?:
              (?:
                [015]1|
                [69]3
              )3|
              [2-4]55|
              [78]99
            )
          )\d{7,8}|
          15(?:
            (?:
              [03-68]00|
              113
            )\d|
            2\d55|
            7\d99|
            9\d33
          )\d{7}
        </nationalNumberPattern>
      </voicemail>
    </territory>"];
  ["

    <!-- Djibouti (DJ) -->
    <!-- http://www.itu.int/oth/T020200003A/en -->
    <territory id=""DJ"" countryCode=""253"" internationalPrefix=""00"">
      <availableFormats>
        <numberFormat pattern=""(\d{2})(\d{2})(\d{2})(\d{2})"">
          <leadingDigits>[27]</leadingDigits>
          <format>$1 $2 $3 $4</format>
        </numberFormat>
      </availableFormats>
      <generalDesc>
        <nationalNumberPattern>
          (?:
            2\d|
            77
          )\d{6}
        </nationalNumberPattern>
      </generalDesc>
      <!-- Includes ""Numéro long CDMA fixe"" numbers. -->
      <fixedLine>
        <possibleLengths national=""8""/>
        <exampleNumber>21360003</exampleNumber>
        <nationalNumberPattern>
          2(?:
            1[2-5]|
            7[45]
          )\d{5}
        </nationalNumberPattern>
      </fixedLine>
      <mobile>
        <possibleLengths national=""8""/>
        <exampleNumber>77831001</exampleNumber>
        <nationalNumberPattern>77\d{6}</nationalNumberPattern>
      </mobile>
    </territory>"];
  ["

    <!-- Denmark (DK) -->
    <!-- https://www.klimadatastyrelsen.dk/digital-infrastruktur/telefoni/numre/den-samlede-danske-nummerplan -->
    <!-- https://nummerregister.sdfi.dk -->
    <!-- https://en.wikipedia.org/wiki/Telephone_numbers_in_Denmark -->
    <!-- https://www.itu.int/oth/T0202000038/en -->
    <territory id=""DK"" countryCode=""45"" internationalPrefix=""00"" mobileNumberPortableRegion=""true"">
      <availableFormats>
        <numberFormat pattern=""(\d{2})(\d{2})(\d{2})(\d{2})"">
          <leadingDigits>[2-9]</leadingDigits>
          <format>$1 $2 $3 $4</format>
        </numberFormat>
      </availableFormats>
      <generalDesc>
        <nationalNumberPattern>[2-9]\d{7}</nationalNumberPattern>
      </generalDesc>
      <!-- Note that ""mainly mobile"" and ""mainly fixed-line"" are put under both number types to be
           safe. -->
      <fixedLine>
        <possibleLengths national=""8""/>
        <exampleNumber>32123456</exampleNumber>
        <nationalNumberPattern>
          (?:
            2(?:
              [0-59][1-9]|
              [6-8]\d
            )|
            3(?:
              [0-3][1-9]|
              4[13]|
              5[1-58]|
              6[1347-9]|
              7\d|
              8[1-8]|
              9[1-79]
            )|
            4(?:
              [0-25][1-9]|
              [34][2-9]|
              6[13-579]|
              7[13579]|
              8[1-47]|
              9[127]
            )|
            5(?:
              [0-36][1-9]|
              4[146-9]|
              5[3-57-9]|
              7[568]|
              8[1-358]|
              9[1-69]
            )|
            6(?:
              [0135][1-9]|
              2[1-68]|
              4[2-8]|
              6[1689]|
              [78]\d|
              9[15689]
            )|
            7(?:
              [0-69][1-9]|
              7[3-9]|
              8[147]
            )|
            8(?:
              [16-9][1-9]|
              2[1-58]
            )|
            9(?:
";
   "              [1-47-9][1-9]|
              6\d
            )
          )\d{5}
        </nationalNumberPattern>
      </fixedLine>
      <mobile>
        <possibleLengths national=""8""/>
        <exampleNumber>34412345</exampleNumber>
        <nationalNumberPattern>
          (?:
            2[6-8]|
            37|
            6[78]|
            96
          )\d{6}|
          (?:
            2[0-59]|
            3[0-689]|
            [457]\d|
            6[0-69]|
            8[126-9]|
            9[1-47-9]
          )[1-9]\d{5}
        </nationalNumberPattern>
      </mobile>
      <tollFree>
        <possibleLengths national=""8""/>
        <exampleNumber>80123456</exampleNumber>
        <nationalNumberPattern>80\d{6}</nationalNumberPattern>
      </tollFree>
      <premiumRate>
        <possibleLengths national=""8""/>
        <exampleNumber>90123456</exampleNumber>
        <nationalNumberPattern>90\d{6}</nationalNumberPattern>
      </premiumRate>
    </territory>"];
  ["

    <!-- Dominica (DM) -->
    <!-- Calling code and formatting shared with 'US' -->
    <!-- http://www.itu.int/oth/T020200003B/en -->
    <territory id=""DM"" countryCode=""1"" leadingDigits=""767"" internationalPrefix=""011""
               nationalPrefix=""1"" nationalPrefixForParsing=""([2-7]\d{6})$|1""
               nationalPrefixTransformRule=""767$1"" mobileNumberPortableRegion=""true"">
      <generalDesc>
        <nationalNumberPattern>
          (?:
            [58]\d\d|
            767|
            900
          )\d{7}
        </nationalNumberPattern>
      </generalDesc>
      <fixedLine>
        <possibleLengths national=""10"" localOnly=""7""/>
        <exampleNumber>7674201234</exampleNumber>
        <nationalNumberPattern>
          767(?:
            2(?:
              55|
              66
            )|
            4(?:
              2[01]|
              4[0-25-9]
            )|
            50[0-4]
          )\d{4}
        </nationalNumberPattern>
      </fixedLine>
      <!-- Adding 61[237], 285 and 295 since online numbers have been found with this prefix. -->
      <mobile>
        <possibleLengths national=""10"" localOnly=""7""/>
        <exampleNumber>7672251234</exampleNumber>
        <nationalNumberPattern>
          767(?:
            2(?:
              [2-4689]5|
              7[5-7]
            )|
            31[5-7]|
            61[1-8]|
            70[1-6]
          )\d{4}
        </nationalNumberPattern>
      </mobile>
      <tollFree>
        <possibleLengths national=""10""/>
        <exampleNumber>8002123456</exampleNumber>
        <nationalNumberPattern>
          8(?:
            00|
            33|
            44|
            55|
            66|
            77|
            88
          )[2-9]\d{6}
        </nationalNumberPattern>
      </tollFree>
      <premiumRate>
        <possibleLengths national=""10""/>
        <exampleNumber>9002123456</exampleNumber>
        <nationalNumberPattern>900[2-9]\d{6}</nationalNumberPattern>
      </premiumRate>
      <!-- https://www.nationalnanpa.com/number_resource_info/5XX_codes.html -->
";
   "      <personalNumber>
        <possibleLengths national=""10""/>
        <exampleNumber>5002345678</exampleNumber>
        <nationalNumberPattern>
          52(?:
            3(?:
              [2-46-9][02-9]\d|
              5(?:
                [02-46-9]\d|
                5[0-46-9]
              )
            )|
            4(?:
              [2-478][02-9]\d|
              5(?:
                [034]\d|
                2[024-9]|
                5[0-46-9]
              )|
              6(?:
                0[1-9]|
                [2-9]\d
              )|
              9(?:
                [05-9]\d|
                2[0-5]|
                49
              )
            )
          )\d{4}|
          52[34][2-9]1[02-9]\d{4}|
          5(?:
            00|
            2[125-9]|
            3[23]|
            44|
            66|
            77|
            88
          )[2-9]\d{6}
        </nationalNumberPattern>
      </personalNumber>
    </territory>"];
  ["

    <!-- Dominican Republic (DO) -->
    <!-- Calling code and formatting shared with 'US' -->
    <!-- http://www.itu.int/oth/T020200003C/en -->
    <territory id=""DO"" countryCode=""1"" leadingDigits=""8001|8[024]9"" internationalPrefix=""011""
               nationalPrefix=""1"" mobileNumberPortableRegion=""true"">
      <generalDesc>
        <nationalNumberPattern>
          (?:
            [58]\d\d|
            900
          )\d{7}
        </nationalNumberPattern>
      </generalDesc>
      <!-- The ITU data seems to be somewhat incomplete. We ensure that the fully-specified mobile
           prefixes in the document are classified as such by excluding them fr";
   "om the fixed-line
           ranges, but other than this have a generic rule. -->
      <fixedLine>
        <possibleLengths national=""10"" localOnly=""7""/>
        <exampleNumber>8092345678</exampleNumber>
        <nationalNumberPattern>
          8(?:
            [04]9[2-9]\d\d|
            29(?:
              2(?:
                [0-59]\d|
                6[04-9]|
                7[0-27]|
                8[0237-9]
              )|
              3(?:
                [0-35-9]\d|
                4[7-9]
              )|
              [45]\d\d|
              6(?:
                [0-27-9]\d|
                [3-5][1-9]|
                6[0135-8]
              )|
              7(?:
                0[013-9]|
                [1-37]\d|
                4[1-35689]|
                5[1-4689]|
                6[1-57-9]|
                8[1-79]|
                9[1-8]
              )|
              8(?:
                0[146-9]|
                1[0-48]|
                [248]\d|
                3[1-79]|
                5[01589]|
                6[013-68]|
                7[124-8]|
                9[0-8]
              )|
              9(?:
                [0-24]\d|
                3[02-46-9]|
                5[0-79]|
                60|
                7[0169]|
                8[57-9]|
                9[02-9]
              )
            )
";
   "          )\d{4}
        </nationalNumberPattern>
      </fixedLine>
      <mobile>
        <possibleLengths national=""10"" localOnly=""7""/>
        <exampleNumber>8092345678</exampleNumber>
        <nationalNumberPattern>8[024]9[2-9]\d{6}</nationalNumberPattern>
      </mobile>
      <tollFree>
        <possibleLengths national=""10""/>
        <exampleNumber>8002123456</exampleNumber>
        <nationalNumberPattern>
          800(?:
            14|
            [2-9]\d
          )\d{5}|
          8[024]9[01]\d{6}|
          8(?:
            33|
            44|
            55|
            66|
            77|
            88
          )[2-9]\d{6}
        </nationalNumberPattern>
      </tollFree>
      <premiumRate>
        <possibleLengths national=""10""/>
        <exampleNumber>9002123456</exampleNumber>
        <nationalNumberPattern>900[2-9]\d{6}</nationalNumberPattern>
      </premiumRate>
      <!-- https://www.nationalnanpa.com/number_resource_info/5XX_codes.html -->
      <personalNumber>
        <possibleLengths national=""10""/>
        <exampleNumber>5002345678</exampleNumber>
        <nationalNumberPattern>
          52(?:
            3(?:
              [2-46-9][02-9]\d|
              5(?:
                [02-46-9]\d|
                5[0-46-9]
              )
            )|
            4(?:
              [2-478][02-9]\d|
              5(?:
                [034]\d|
                2[024-9]|
                5[0-46-9]
              )|
              6(?:
                0[1-9]|
                [2-9]\d
              )|
              9(?:
                [05-9]\d|
                2[0-5]|
                49
              )
            )
          )\d{4}|
          52[34][2-9]1[02-9]\d{4}|
          5(?:
            00|
            2[125-9]|
            3[23]|
            44|
            66|
            77|
            88
          )[2-9]\d{6}
        </nationalNumberPattern>
      </personalNumber>
    </territory>"];
  ["

    <!-- Algeria (DZ) -->
    <!-- http://www.itu.int/oth/T0202000003/en -->
    <!-- http://www.arpt.dz -->
    <territory id=""DZ"" countryCode=""213"" internationalPrefix=""00"" nationalPrefix=""0"">
      <availableFormats>
        <!-- Formatting fr";
   "om http://www.pagesjaunes-dz.com. -->
        <numberFormat pattern=""(\d{2})(\d{2})(\d{2})(\d{2})"" nationalPrefixFormattingRule=""$NP$FG"">
          <leadingDigits>[1-4]</leadingDigits>
          <format>$1 $2 $3 $4</format>
        </numberFormat>
        <numberFormat pattern=""(\d{2})(\d{3})(\d{2})(\d{2})"" nationalPrefixFormattingRule=""$NP$FG"">
          <leadingDigits>9</leadingDigits>
          <format>$1 $2 $3 $4</format>
        </numberFormat>
        <numberFormat pattern=""(\d{3})(\d{2})(\d{2})(\d{2})"" nationalPrefixFormattingRule=""$NP$FG"">
          <leadingDigits>[5-8]</leadingDigits>
          <format>$1 $2 $3 $4</format>
        </numberFormat>
      </availableFormats>
      <generalDesc>
        <nationalNumberPattern>
          (?:
            [1-4]|
            [5-79]\d|
            80
          )\d{7}
        </nationalNumberPattern>
      </generalDesc>
      <!-- We in";
   "clude the VSAT lines here. -->
      <!-- Added prefix 23 found online. -->
      <fixedLine>
        <possibleLengths national=""8,9""/>
        <exampleNumber>12345678</exampleNumber>
        <nationalNumberPattern>
          9619\d{5}|
          (?:
            [1-3]\d|
            4[013-689]
          )\d{6}
        </nationalNumberPattern>
      </fixedLine>
      <!-- Adding 65 and 78 fr";
   "om numbers found online. Also, prefix 670 is added since the carrier
           Mobilis Algeria provided it, and 54 for Nedjma. Prefixes 67[1-4] were also added for
           Mobilis Algeria based on evidence found online. Added new ranges 675 and 676 as
           per IR21 received. -->
      <mobile>
        <possibleLengths national=""9""/>
        <exampleNumber>551234567</exampleNumber>
        <nationalNumberPattern>
          5(?:
            4[0-29]|
";
   "            6[0-4]
          )\d{6}|
          (?:
            55|
            6\d|
            7[7-9]
          )\d{7}
        </nationalNumberPattern>
      </mobile>
      <tollFree>
        <possibleLengths national=""9""/>
        <exampleNumber>800123456</exampleNumber>
        <nationalNumberPattern>800\d{6}</nationalNumberPattern>
      </tollFree>
      <premiumRate>
        <possibleLengths national=""9""/>
        <exampleNumber>808123456</exampleNumber>
        <nationalNumberPattern>80[3-689]1\d{5}</nationalNumberPattern>
      </premiumRate>
      <!-- The Algerian plan doesn't specify where the costs start to be considered ""premium"", so we
           draw an arbitrary line here and say that fr";
   "om 50 Da up they will be considered premium. -->
      <sharedCost>
        <possibleLengths national=""9""/>
        <exampleNumber>801123456</exampleNumber>
        <nationalNumberPattern>80[12]1\d{5}</nationalNumberPattern>
      </sharedCost>
      <voip>
        <possibleLengths national=""9""/>
        <exampleNumber>983123456</exampleNumber>
        <nationalNumberPattern>98[23]\d{6}</nationalNumberPattern>
      </voip>
    </territory>"];
  ["

    <!-- Ecuador (EC) -->
    <!-- http://en.wikipedia.org/wiki/+593 -->
    <!-- http://www.arcotel.gob.ec/plan-tecnico-fundamental-de-numeracion-series-numericas/ -->
    <!-- http://www.itu.int/oth/T020200003D/en -->
    <territory id=""EC"" countryCode=""593"" internationalPrefix=""00"" nationalPrefix=""0""
               mobileNumberPortableRegion=""true"">
      <availableFormats>
        <numberFormat pattern=""(\d{3})(\d{4})"">
          <leadingDigits>[2-7]</leadingDigits>
          <format>$1-$2</format>
          <intlFormat>NA</intlFormat>
        </numberFormat>
        <numberFormat pattern=""(\d)(\d{3})(\d{4})"" nationalPrefixFormattingRule=""($NP$FG)"">
          <leadingDigits>[2-7]</leadingDigits>
          <format>$1 $2-$3</format>
          <intlFormat>$1-$2-$3</intlFormat>
        </numberFormat>
        <!-- Formatting for the new longer mobile numbers comes fr";
   "om the advertisements about the
             change on the http://www.conatel.gob.ec site. -->
        <numberFormat pattern=""(\d{2})(\d{3})(\d{4})"" nationalPrefixFormattingRule=""$NP$FG"">
          <leadingDigits>9</leadingDigits>
          <format>$1 $2 $3</format>
        </numberFormat>
        <numberFormat pattern=""(\d{4})(\d{3})(\d{3,4})"">
          <leadingDigits>1</leadingDigits>
          <format>$1 $2 $3</format>
        </numberFormat>
      </availableFormats>
      <generalDesc>
        <nationalNumberPattern>
          1\d{9,10}|
          (?:
            [2-7]|
            9\d
          )\d{7}
        </nationalNumberPattern>
      </generalDesc>
      <fixedLine>
        <possibleLengths national=""8"" localOnly=""7""/>
        <exampleNumber>22123456</exampleNumber>
        <nationalNumberPattern>[2-7][2-7]\d{6}</nationalNumberPattern>
      </fixedLine>
      <mobile>
        <possibleLengths national=""9""/>
        <exampleNumber>991234567</exampleNumber>
        <nationalNumberPattern>
          964[0-2]\d{5}|
          9(?:
            39|
            [57][89]|
            6[0-36-9]|
            [89]\d
";
   "          )\d{6}
        </nationalNumberPattern>
      </mobile>
      <tollFree>
        <possibleLengths national=""10,11""/>
        <exampleNumber>18001234567</exampleNumber>
        <nationalNumberPattern>
          1800\d{7}|
          1[78]00\d{6}
        </nationalNumberPattern>
      </tollFree>
      <voip>
        <possibleLengths national=""8""/>
        <exampleNumber>28901234</exampleNumber>
        <nationalNumberPattern>[2-7]890\d{4}</nationalNumberPattern>
      </voip>
    </territory>"];
  ["

    <!-- Estonia (EE) -->
    <!-- http://www.itu.int/oth/T0202000043/en -->
    <territory id=""EE"" countryCode=""372"" internationalPrefix=""00"" mobileNumberPortableRegion=""true"">
      <availableFormats>
        <numberFormat pattern=""(\d{3})(\d{4})"">
          <leadingDigits>
            [369]|
            4[3-8]|
            5(?:
              [0-2]|
              5[0-478]|
              6[45]
            )|
            7[1-9]|
            88
          </leadingDigits>
          <leadingDigits>
            [369]|
            4[3-8]|
            5(?:
              [02]|
              1(?:
                [0-8]|
                95
              )|
              5[0-478]|
              6(?:
                4[0-4]|
                5[1-589]
              )
            )|
            7[1-9]|
            88
          </leadingDigits>
          <format>$1 $2</format>
        </numberFormat>
        <numberFormat pattern=""(\d{4})(\d{3,4})"">
          <leadingDigits>
            [45]|
            8(?:
              00|
              [1-49]
            )
          </leadingDigits>
          <leadingDigits>
            [45]|
            8(?:
              00[1-9]|
              [1-49]
            )
          </leadingDigits>
          <format>$1 $2</format>
        </numberFormat>
        <numberFormat pattern=""(\d{2})(\d{2})(\d{4})"">
          <leadingDigits>7</leadingDigits>
          <format>$1 $2 $3</format>
        </numberFormat>
        <numberFormat pattern=""(\d{4})(\d{3})(\d{3})"">
          <leadingDigits>8</leadingDigits>
          <format>$1 $2 $3</format>
        </numberFormat>
      </availableFormats>
      <generalDesc>
        <nationalNumberPattern>
          8\d{9}|
          [4578]\d{7}|
          (?:
            [3-8]\d|
            90
          )\d{5}
        </nationalNumberPattern>
      </generalDesc>
      <noInternationalDialling>
        <possibleLengths national=""7""/>
        <nationalNumberPattern>800[2-9]\d{3}</nationalNumberPattern>
      </noInternationalDialling>
";
   "      <fixedLine>
        <possibleLengths national=""7""/>
        <exampleNumber>3212345</exampleNumber>
        <nationalNumberPattern>
          (?:
            3[23589]|
            4[3-8]|
            6\d|
            7[1-9]|
            88
          )\d{5}
        </nationalNumberPattern>
      </fixedLine>
      <!-- 7 digit mobile numbers currently in use with special prefixes are preserved - new
           numbers are 8 digits. -->
      <mobile>
        <possibleLengths national=""7,8""/>
        <exampleNumber>51234567</exampleNumber>
        <nationalNumberPattern>
          (?:
            5\d{5}|
            8(?:
              1(?:
                0(?:
                  0(?:
                    00|
                    [178]\d
                  )|
                  [3-9]\d\d
                )|
                (?:
                  1(?:
                    0[2-6]|
                    1\d
                  )|
                  [2-79]\d\d
                )\d
              )|
              2(?:
                0(?:
                  0(?:
                    00|
                    4\d
                  )|
                  (?:
                    19|
                    [2-7]\d
                  )\d
                )|
                (?:
                  (?:
                    [124-69]\d|
                    3[5-9]
                  )\d|
                  7(?:
                    [0-79]\d|
                    8[013-9]
                  )|
                  8(?:
                    [2-6]\d|
                    7[01]
                  )
                )\d
              )|
              [349]\d{4}
            )
          )\d\d|
          5(?:
            (?:
              [02]\d|
              5[0-478]
            )\d|
            1(?:
              [0-8]\d|
              95
            )|
            6(?:
              4[0-4]|
              5[1-589]
            )
          )\d{3}
        </nationalNumberPattern>
      </mobile>
      <tollFree>
        <possibleLengths national=""7,8,10""/>
";
   "        <exampleNumber>80012345</exampleNumber>
        <nationalNumberPattern>
          800(?:
            (?:
              0\d\d|
              1
            )\d|
            [2-9]
          )\d{3}
        </nationalNumberPattern>
      </tollFree>
      <!-- Supporting eFax numbers here as well. We aren't sure the exact cost, but have
           had user reports that they are expensive to dial. -->
      <premiumRate>
        <possibleLengths national=""7,8""/>
        <exampleNumber>9001234</exampleNumber>
        <nationalNumberPattern>
          (?:
            40\d\d|
            900
          )\d{4}
        </nationalNumberPattern>
      </premiumRate>
      <personalNumber>
        <possibleLengths national=""8""/>
        <exampleNumber>70012345</exampleNumber>
        <nationalNumberPattern>70[0-2]\d{5}</nationalNumberPattern>
      </personalNumber>
    </territory>"];
  ["

    <!-- Egypt (EG) -->
    <!-- http://www.itu.int/oth/T020200003E/en -->
    <territory id=""EG"" countryCode=""20"" internationalPrefix=""00"" nationalPrefix=""0""
               mobileNumberPortableRegion=""true"">
      <availableFormats>
        <numberFormat pattern=""(\d)(\d{7,8})"" nationalPrefixFormattingRule=""$NP$FG"">
          <leadingDigits>[23]</leadingDigits>
          <format>$1 $2</format>
        </numberFormat>
        <numberFormat pattern=""(\d{2})(\d{6,7})"" nationalPrefixFormattingRule=""$NP$FG"">
          <leadingDigits>
            1[35]|
            [4-6]|
            8[2468]|
            9[235-7]
          </leadingDigits>
          <format>$1 $2</format>
        </numberFormat>
        <numberFormat pattern=""(\d{3})(\d{3})(\d{4})"" nationalPrefixFormattingRule=""$NP$FG"">
          <leadingDigits>[89]</leadingDigits>
          <format>$1 $2 $3</format>
        </numberFormat>
        <numberFormat pattern=""(\d{2})(\d{8})"" nationalPrefixFormattingRule=""$NP$FG"">
          <leadingDigits>1</leadingDigits>
          <format>$1 $2</format>
        </numberFormat>
      </availableFormats>
      <generalDesc>
        <nationalNumberPattern>
          [189]\d{8,9}|
          [24-6]\d{8}|
          [135]\d{7}
        </nationalNumberPattern>
      </generalDesc>
      <!-- Subscriber numbers starting with 5 are also permitted for the area codes 040, with 5, 6
           and 7 for the area code 050, with 5 and 7 for 082, with 6 for 084, with 7 for 086 and
           092 and with 5 and 6 for 96. -->
      <fixedLine>
        <possibleLengths national=""8,9"" localOnly=""6,7""/>
        <exampleNumber>234567890</exampleNumber>
        <nationalNumberPattern>
          13[23]\d{6}|
          (?:
            15|
            57
          )\d{6,7}|
          (?:
            2\d|
            3|
            4[05-8]|
            5[05]|
            6[24-689]|
            8[2468]|
            9[235-7]
          )\d{7}
        </nationalNumberPattern>
      </fixedLine>
      <mobile>
";
   "        <possibleLengths national=""10""/>
        <exampleNumber>1001234567</exampleNumber>
        <nationalNumberPattern>1[0-25]\d{8}</nationalNumberPattern>
      </mobile>
      <tollFree>
        <possibleLengths national=""10""/>
        <exampleNumber>8001234567</exampleNumber>
        <nationalNumberPattern>800\d{7}</nationalNumberPattern>
      </tollFree>
      <premiumRate>
        <possibleLengths national=""10""/>
        <exampleNumber>9001234567</exampleNumber>
        <nationalNumberPattern>900\d{7}</nationalNumberPattern>
      </premiumRate>
    </territory>"];
  ["

    <!-- Western Sahara (EH) -->
    <!-- Calling code and formatting shared with 'MA' -->
    <!-- Two area codes are de";
   "fined in the Morocco ITU document; 05288 XXXXX and 05289 XXXXX -->
    <!-- http://www.itu.int/oth/T0202000090/en -->
    <territory id=""EH"" countryCode=""212"" internationalPrefix=""00"" nationalPrefix=""0"">
      <generalDesc>
        <nationalNumberPattern>[5-8]\d{8}</nationalNumberPattern>
      </generalDesc>
      <fixedLine>
        <possibleLengths national=""9""/>
        <exampleNumber>528812345</exampleNumber>
        <nationalNumberPattern>528[89]\d{5}</nationalNumberPattern>
      </fixedLine>
      <!-- The following sections are copied verbatim fr";
   "om Morocco to allow these non-geographical
           numbers to be recognized as available fr";
   "om within Western Sahara. -->
      <mobile>
        <possibleLengths national=""9""/>
        <exampleNumber>650123456</exampleNumber>
        <nationalNumberPattern>
          (?:
            6(?:
              [0-79]\d|
              8[0-247-9]
            )|
            7(?:
              [016-8]\d|
              2[0-8]|
              5[0-5]
            )
          )\d{6}
        </nationalNumberPattern>
      </mobile>
      <tollFree>
        <possibleLengths national=""9""/>
        <exampleNumber>801234567</exampleNumber>
        <nationalNumberPattern>80[0-7]\d{6}</nationalNumberPattern>
      </tollFree>
      <premiumRate>
        <possibleLengths national=""9""/>
        <exampleNumber>891234567</exampleNumber>
        <nationalNumberPattern>89\d{7}</nationalNumberPattern>
      </premiumRate>
      <!-- Putting VSAT numbers here. -->
      <voip>
        <possibleLengths national=""9""/>
        <exampleNumber>592401234</exampleNumber>
        <nationalNumberPattern>
          (?:
            592(?:
              4[0-2]|
              93
            )|
            80[89]\d\d
          )\d{4}
        </nationalNumberPattern>
      </voip>
    </territory>"];
  ["

    <!-- Eritrea (ER) -->
    <!-- http://www.itu.int/oth/T0202000042/en -->
    <territory id=""ER"" countryCode=""291"" internationalPrefix=""00"" nationalPrefix=""0"">
      <availableFormats>
        <numberFormat pattern=""(\d)(\d{3})(\d{3})"" nationalPrefixFormattingRule=""$NP$FG"">
          <leadingDigits>[178]</leadingDigits>
          <format>$1 $2 $3</format>
        </numberFormat>
      </availableFormats>
      <generalDesc>
        <nationalNumberPattern>[178]\d{6}</nationalNumberPattern>
      </generalDesc>
      <!-- Test number fr";
   "om plan. -->
      <fixedLine>
        <possibleLengths national=""7"" localOnly=""6""/>
        <exampleNumber>8370362</exampleNumber>
        <nationalNumberPattern>
          (?:
            1(?:
              1[12568]|
              [24]0|
              55|
              6[146]
            )|
            8\d\d
          )\d{4}
        </nationalNumberPattern>
      </fixedLine>
      <!-- It is unclear in the plan whether the 07 mobile prefix superseded the previous 017[1-3]
           numbers or was in addition to them, so we support both here. -->
      <mobile>
        <possibleLengths national=""7""/>
        <exampleNumber>7123456</exampleNumber>
        <nationalNumberPattern>
          (?:
            17[1-3]|
            7\d\d
          )\d{4}
        </nationalNumberPattern>
      </mobile>
    </territory>"];
  ["

    <!-- Spain (ES) -->
    <!-- https://avance.digital.gob.es/en-us/Servicios/Numeracion/Paginas/Plan.aspx -->
    <territory id=""ES"" countryCode=""34"" internationalPrefix=""00"" mobileNumberPortableRegion=""true"">
      <availableFormats>
        <!-- 4-digit shortcodes which would otherwise be formatted as 'XXX X' -->
        <numberFormat pattern=""(\d{4})"">
          <leadingDigits>905</leadingDigits>
          <format>$1</format>
          <intlFormat>NA</intlFormat>
        </numberFormat>
        <!-- 6-digit shortcodes which would otherwise be formatted as 'XXX XX X' -->
        <numberFormat pattern=""(\d{6})"">
          <leadingDigits>[79]9</leadingDigits>
          <format>$1</format>
          <intlFormat>NA</intlFormat>
        </numberFormat>
        <!-- Toll free numbers. -->
        <numberFormat pattern=""(\d{3})(\d{3})(\d{3})"">
          <leadingDigits>[89]00</leadingDigits>
          <format>$1 $2 $3</format>
        </numberFormat>
        <numberFormat pattern=""(\d{3})(\d{2})(\d{2})(\d{2})"">
          <leadingDigits>[5-9]</leadingDigits>
          <format>$1 $2 $3 $4</format>
        </numberFormat>
      </availableFormats>
      <generalDesc>
        <nationalNumberPattern>[5-9]\d{8}</nationalNumberPattern>
      </generalDesc>
      <!-- The pattern is complex because the Lleida Networks mobile ranges are inside the
           fixed-line ranges. As per official announcement, 919 prefix is assigned to
           Madrid area http://www.boe.es/boe/dias/2016/11/17/pdfs/BOE-A-2016-10756.pdf. -->
      <fixedLine>
        <possibleLengths national=""9""/>
        <exampleNumber>810123456</exampleNumber>
        <nationalNumberPattern>
          96906(?:
            0[0-8]|
            1[1-9]|
            [2-9]\d
          )\d\d|
          9(?:
            69(?:
              0[0-57-9]|
              [1-9]\d
            )|
            73(?:
              [0-8]\d|
              9[1-9]
            )
          )\d{4}|
          (?:
            8(?:
              [1356]\d|
";
   "              [28][0-8]|
              [47][1-9]
            )|
            9(?:
              [135]\d|
              [268][0-8]|
              4[1-9]|
              7[124-9]
            )
          )\d{6}
        </nationalNumberPattern>
      </fixedLine>
      <!-- The ranges 969060900 to 969061099 and 973900000 to 973909999 are mobile according to
           information received fr";
   "om Lleida Networks. Added 78 range based on user bug reports. -->
      <mobile>
        <possibleLengths national=""9""/>
        <exampleNumber>612345678</exampleNumber>
        <nationalNumberPattern>
          96906(?:
            09|
            10
          )\d\d|
          (?:
            590(?:
              10[0-2]|
              600
            )|
            97390\d
          )\d{3}|
          (?:
            6\d|
            7[1-48]
          )\d{7}
        </nationalNumberPattern>
      </mobile>
      <tollFree>
        <possibleLengths national=""9""/>
        <exampleNumber>800123456</exampleNumber>
        <nationalNumberPattern>[89]00\d{6}</nationalNumberPattern>
      </tollFree>
      <premiumRate>
        <possibleLengths national=""9""/>
        <exampleNumber>803123456</exampleNumber>
        <nationalNumberPattern>80[367]\d{6}</nationalNumberPattern>
      </premiumRate>
      <sharedCost>
        <possibleLengths national=""9""/>
        <exampleNumber>901123456</exampleNumber>
        <nationalNumberPattern>90[12]\d{6}</nationalNumberPattern>
      </sharedCost>
      <personalNumber>
        <possibleLengths national=""9""/>
        <exampleNumber>701234567</exampleNumber>
        <nationalNumberPattern>70\d{7}</nationalNumberPattern>
      </personalNumber>
      <!-- Modelling non-geographic nomadic numbers as UAN. -->
      <uan>
        <possibleLengths national=""9""/>
        <exampleNumber>511234567</exampleNumber>
        <nationalNumberPattern>51\d{7}</nationalNumberPattern>
      </uan>
    </territory>"];
  ["

    <!-- Ethiopia (ET) -->
    <!-- http://www.itu.int/oth/T0202000044/en -->
    <territory id=""ET"" countryCode=""251"" internationalPrefix=""00"" nationalPrefix=""0"">
      <availableFormats>
        <numberFormat pattern=""(\d{2})(\d{3})(\d{4})"" nationalPrefixFormattingRule=""$NP$FG"">
          <leadingDigits>[1-57-9]</leadingDigits>
          <format>$1 $2 $3</format>
        </numberFormat>
      </availableFormats>
      <generalDesc>
        <nationalNumberPattern>
          (?:
            11|
            [2-57-9]\d
          )\d{7}
        </nationalNumberPattern>
      </generalDesc>
      <!-- Found valid fixed-line numbers online that starts with prefix 11 617, 11 639 and
           11 667[01]. -->
      <fixedLine>
        <possibleLengths national=""9"" localOnly=""7""/>
        <exampleNumber>111112345</exampleNumber>
        <nationalNumberPattern>
          (?:
            11(?:
              [124]\d\d|
              3(?:
                [0-79]\d|
                8[0-7]
              )|
              5(?:
                [02-9]\d|
                1[0-57-9]
              )|
              6(?:
                [02-79]\d|
                1[0-57-9]|
                8[0-8]
              )
            )|
            2(?:
              2(?:
                11[1-9]|
                22[0-7]|
                33\d|
                44[1467]|
                66[1-68]
              )|
              5(?:
                11[124-6]|
                33[2-8]|
                44[1467]|
                55[14]|
                66[1-3679]|
                77[124-79]|
                880
              )
            )|
            3(?:
              3(?:
                11[0-46-8]|
                (?:
                  22|
                  55
                )[0-6]|
                33[0134689]|
                44[04]|
                66[01467]
              )|
              4(?:
                44[0-8]|
                55[0-69]|
                66[0-3]|
                77[1-5]
              )
";
   "            )|
            4(?:
              6(?:
                119|
                22[0-24-7]|
                33[1-5]|
                44[13-69]|
                55[14-689]|
                660|
                88[1-4]
              )|
              7(?:
                (?:
                  11|
                  22
                )[1-9]|
                33[13-7]|
                44[13-6]|
                55[1-689]
              )
            )|
            5(?:
              7(?:
                227|
                55[05]|
                (?:
                  66|
                  77
                )[14-8]
              )|
              8(?:
                11[149]|
                22[013-79]|
                33[0-68]|
                44[013-8]|
                550|
                66[1-5]|
                77\d
              )
            )
          )\d{4}
        </nationalNumberPattern>
      </fixedLine>
      <!-- The data here is not regularly updated by the Ethiopian authorities, and many more
           numbers are visible online than are reported in the ITU document. We have also
           referred to IR 21 docs as they are frequently updated. -->
      <mobile>
        <possibleLengths national=""9""/>
        <exampleNumber>911234567</exampleNumber>
        <nationalNumberPattern>
          700[1-9]\d{5}|
          (?:
            7(?:
              0[1-9]|
              1[0-8]|
              2[1-35-79]|
              3\d|
              77|
              86|
              99
            )|
            (?:
              8[01]|
              9\d
            )\d
          )\d{6}
        </nationalNumberPattern>
      </mobile>
    </territory>"];
  ["

    <!-- Finland (FI) -->
    <!-- Main region for 'AX' -->
    <!-- Adding all international carrier access codes in below doc that we found corroborating
         evidence for. https://www.viestintavirasto.fi/en/internettelephone/numberingoftelecommunicationsnetworks/internationalcalls/internationalcarrieraccesscodes.html -->
    <!-- Not supporting national long distance carrier codes as these are overlapping with UAN
         ranges mentioned in ITU doc. -->
    <!-- https://www.viestintavirasto.fi/internetpuhelin/puhelinverkonnumerointi.html -->
    <territory id=""FI"" mainCountryForCode=""true"" countryCode=""358"" leadingDigits=""1[03-79]|[2-9]""
               preferredInternationalPrefix=""00""
               internationalPrefix=""00|99(?:[01469]|5(?:[14]1|3[23]|5[59]|77|88|9[09]))""
               nationalPrefix=""0"" mobileNumberPortableRegion=""true"">
      <availableFormats>
        <!-- Most service numbers are included under UAN in PhoneNumberMetadata.xml (and also in
             the no-international-dialling block) but prefixes 75[12] are always short and used
             for directory services so are covered in ShortNumberMetadata.xml intead. However,
             they still need a national prefix so we have a formatting rule here. -->
        <numberFormat pattern=""(\d{5})"" nationalPrefixFormattingRule=""$NP$FG"">
          <leadingDigits>75[12]</leadingDigits>
          <format>$1</format>
          <intlFormat>NA</intlFormat>
        </numberFormat>
        <!-- Format for 5 digit UAN numbers. -->
        <numberFormat pattern=""(\d{5})"" nationalPrefixFormattingRule=""$NP$FG"">
          <leadingDigits>20[2-59]</leadingDigits>
          <format>$1</format>
        </numberFormat>
        <!-- Format for 6 digit short codes. -->
        <numberFormat pattern=""(\d{6})"">
          <leadingDigits>11</leadingDigits>
          <format>$1</format>
          <intlFormat>NA</intlFormat>
        </numberFormat>
        <!-- General format for 3-digit prefix (6-10 digit numbers). -->
";
   "        <numberFormat pattern=""(\d{3})(\d{3,7})"" nationalPrefixFormattingRule=""$NP$FG"">
          <leadingDigits>
            (?:
              [1-3]0|
              [68]
            )0|
            70[07-9]
          </leadingDigits>
          <format>$1 $2</format>
        </numberFormat>
        <!-- General format for 2-digit prefix (6-10 digit numbers). -->
        <numberFormat pattern=""(\d{2})(\d{4,8})"" nationalPrefixFormattingRule=""$NP$FG"">
          <leadingDigits>
            [14]|
            2[09]|
            50|
            7[135]
          </leadingDigits>
          <format>$1 $2</format>
        </numberFormat>
        <numberFormat pattern=""(\d{2})(\d{6,10})"" nationalPrefixFormattingRule=""$NP$FG"">
          <leadingDigits>7</leadingDigits>
          <format>$1 $2</format>
        </numberFormat>
        <!-- General format for 1-digit prefix (5-10 digit numbers). -->
        <numberFormat pattern=""(\d)(\d{4,9})"" nationalPrefixFormattingRule=""$NP$FG"">
          <leadingDigits>
            (?:
              19|
              [2568]
            )[1-8]|
            3(?:
              0[1-9]|
              [1-9]
            )|
            9
          </leadingDigits>
          <format>$1 $2</format>
        </numberFormat>
      </availableFormats>
      <generalDesc>
        <nationalNumberPattern>
          [1-35689]\d{4}|
          7\d{10,11}|
          (?:
            [124-7]\d|
            3[0-46-9]
          )\d{8}|
          [1-9]\d{5,8}
        </nationalNumberPattern>
      </generalDesc>
      <!-- According to the national numbering plan, service numbers are in general not accessible
           fr";
   "om abroad, although 600/700/800 numbers may be. -->
      <noInternationalDialling>
        <possibleLengths national=""[5-12]""/>
        <nationalNumberPattern>
          20(?:
            2[023]|
            9[89]
          )\d{1,6}|
          (?:
            60[12]\d|
            7099
          )\d{4,5}|
          (?:
            606|
            7(?:
";
   "              0[78]|
              1|
              3\d
            )
          )\d{7}|
          (?:
            [1-3]00|
            7(?:
              0[1-5]\d\d|
              5[03-9]
            )
          )\d{3,7}
        </nationalNumberPattern>
      </noInternationalDialling>
      <!-- This is limited to geographic numbers - non-geographic nationwide subscriber numbers
           are listed under UAN. It also excludes Åland numbers.  Only 5, 7, 8 and 9 digit numbers
           are possible as per www.viestintavirasto.fi's plan. Supporting other lengths based on
           user reports. -->
      <fixedLine>
        <possibleLengths national=""[5-9]""/>
        <exampleNumber>131234567</exampleNumber>
        <nationalNumberPattern>
          1[3-7][1-8]\d{3,6}|
          (?:
            19[1-8]|
            [23568][1-8]\d|
            9(?:
              00|
              [1-8]\d
            )
          )\d{2,6}
        </nationalNumberPattern>
      </fixedLine>
      <!-- Only 8, 9 and 10 digit numbers are possible as per www.viestintavirasto.fi's plan.
           Supporting other lengths based on user reports. -->
      <mobile>
        <possibleLengths national=""[6-10]""/>
        <exampleNumber>412345678</exampleNumber>
        <nationalNumberPattern>
          4946\d{2,6}|
          (?:
            4[0-8]|
            50
          )\d{4,8}
        </nationalNumberPattern>
      </mobile>
      <tollFree>
        <possibleLengths national=""[7-9]""/>
        <exampleNumber>800123456</exampleNumber>
        <nationalNumberPattern>800\d{4,6}</nationalNumberPattern>
      </tollFree>
      <premiumRate>
        <possibleLengths national=""8,9""/>
        <exampleNumber>600123456</exampleNumber>
        <nationalNumberPattern>[67]00\d{5,6}</nationalNumberPattern>
      </premiumRate>
      <!-- Covers nationwide non-geographic numbers, and nationwide ""service numbers"", typically
           assigned to institutions such as universities, the national post, etc, where they are
";
   "           not otherwise classified as toll-free or premium-rate numbers. -->
      <uan>
        <possibleLengths national=""[5-12]""/>
        <exampleNumber>10112345</exampleNumber>
        <nationalNumberPattern>
          20\d{4,8}|
          60[12]\d{5,6}|
          7(?:
            099\d{4,5}|
            5[03-9]\d{3,7}
          )|
          20[2-59]\d\d|
          (?:
            606|
            7(?:
              0[78]|
              1|
              3\d
            )
          )\d{7}|
          (?:
            10|
            29|
            3[09]|
            70[1-5]\d
          )\d{4,8}
        </nationalNumberPattern>
      </uan>
    </territory>"];
  ["

    <!-- Fiji (FJ) -->
    <!-- http://www.itu.int/oth/T0202000048/en -->
    <!-- http://www.tfl.com.fj -->
    <territory id=""FJ"" countryCode=""679"" preferredInternationalPrefix=""00""
               internationalPrefix=""0(?:0|52)"">
      <availableFormats>
        <numberFormat pattern=""(\d{3})(\d{4})"">
          <leadingDigits>
            [235-9]|
            45
          </leadingDigits>
          <format>$1 $2</format>
        </numberFormat>
        <numberFormat pattern=""(\d{4})(\d{3})(\d{4})"">
          <leadingDigits>0</leadingDigits>
          <format>$1 $2 $3</format>
        </numberFormat>
      </availableFormats>
      <generalDesc>
        <nationalNumberPattern>
          45\d{5}|
          (?:
            0800\d|
            [235-9]
          )\d{6}
        </nationalNumberPattern>
      </generalDesc>
      <!-- Adding the prefixes 30X, 31X and 62X, since numbers with these prefixes have been found
           online, including in the white pages. 35X and 85X were found in the exchanges listed on
           http://www.tfl.com.fj. Prefix 603 is added based on user report and online results. -->
      <fixedLine>
        <possibleLengths national=""7""/>
        <exampleNumber>3212345</exampleNumber>
        <nationalNumberPattern>
          603\d{4}|
          (?:
            3[0-5]|
            6[25-7]|
            8[58]
          )\d{5}
        </nationalNumberPattern>
      </fixedLine>
      <mobile>
        <possibleLengths national=""7""/>
        <exampleNumber>7012345</exampleNumber>
        <nationalNumberPattern>
          (?:
            [279]\d|
            45|
            5[01568]|
            8[034679]
          )\d{5}
        </nationalNumberPattern>
      </mobile>
      <!-- Information found on http://www.tfl.com.fj. It is not clear if these are
           internationally diallable, or if so, how. -->
      <tollFree>
        <possibleLengths national=""11""/>
        <exampleNumber>08001234567</exampleNumber>
        <nationalNumberPattern>0800\d{7}</nationalNumberPattern>
";
   "      </tollFree>
    </territory>"];
  ["

    <!-- Falkland Islands (Islas Malvinas) (FK) -->
    <!-- http://www.itu.int/oth/T0202000046/en -->
    <territory id=""FK"" countryCode=""500"" internationalPrefix=""00"">
      <generalDesc>
        <nationalNumberPattern>[2-7]\d{4}</nationalNumberPattern>
      </generalDesc>
      <fixedLine>
        <possibleLengths national=""5""/>
        <exampleNumber>31234</exampleNumber>
        <nationalNumberPattern>[2-47]\d{4}</nationalNumberPattern>
      </fixedLine>
      <mobile>
        <possibleLengths national=""5""/>
        <exampleNumber>51234</exampleNumber>
        <nationalNumberPattern>[56]\d{4}</nationalNumberPattern>
      </mobile>
    </territory>"];
  ["

    <!-- Micronesia (FM) -->
    <!-- http://www.itu.int/oth/T020200008B/en -->
    <territory id=""FM"" countryCode=""691"" internationalPrefix=""00"">
      <availableFormats>
        <numberFormat pattern=""(\d{3})(\d{4})"">
          <leadingDigits>[389]</leadingDigits>
          <format>$1 $2</format>
        </numberFormat>
      </availableFormats>
      <generalDesc>
        <nationalNumberPattern>
          (?:
            [39]\d\d|
            820
          )\d{4}
        </nationalNumberPattern>
      </generalDesc>
      <fixedLine>
        <possibleLengths national=""7""/>
        <exampleNumber>3201234</exampleNumber>
        <nationalNumberPattern>
          31(?:
            00[67]|
            208|
            309
          )\d\d|
          (?:
            3(?:
              [2357]0[1-9]|
              602|
              804|
              905
            )|
            (?:
              820|
              9[2-6]\d
            )\d
          )\d{3}
        </nationalNumberPattern>
      </fixedLine>
      <!-- Note that most ranges are used for both fixed and mobile but numbers starting with 97X
           are exclusively mobile. -->
      <mobile>
        <possibleLengths national=""7""/>
        <exampleNumber>3501234</exampleNumber>
        <nationalNumberPattern>
          31(?:
            00[67]|
            208|
            309
          )\d\d|
          (?:
            3(?:
              [2357]0[1-9]|
              602|
              804|
              905
            )|
            (?:
              820|
              9[2-7]\d
            )\d
          )\d{3}
        </nationalNumberPattern>
      </mobile>
    </territory>"];
  ["

    <!-- Faroe Islands (FO) -->
    <!-- http://www.itu.int/oth/T0202000047/en -->
    <!-- All numbers are formatted together, as a block. -->
    <territory id=""FO"" countryCode=""298"" internationalPrefix=""00""
               nationalPrefixForParsing=""(10(?:01|[12]0|88))"">
      <availableFormats>
        <numberFormat pattern=""(\d{6})"" carrierCodeFormattingRule=""$CC $FG"">
          <leadingDigits>[2-9]</leadingDigits>
          <format>$1</format>
        </numberFormat>
      </availableFormats>
      <generalDesc>
        <nationalNumberPattern>[2-9]\d{5}</nationalNumberPattern>
      </generalDesc>
      <fixedLine>
        <possibleLengths national=""6""/>
        <exampleNumber>201234</exampleNumber>
        <nationalNumberPattern>
          (?:
            20|
            [34]\d|
            8[19]
          )\d{4}
        </nationalNumberPattern>
      </fixedLine>
      <mobile>
        <possibleLengths national=""6""/>
        <exampleNumber>211234</exampleNumber>
        <nationalNumberPattern>
          (?:
            [27][1-9]|
            5\d|
            9[16]
          )\d{4}
        </nationalNumberPattern>
      </mobile>
      <tollFree>
        <possibleLengths national=""6""/>
        <exampleNumber>802123</exampleNumber>
        <nationalNumberPattern>80[257-9]\d{3}</nationalNumberPattern>
      </tollFree>
      <premiumRate>
        <possibleLengths national=""6""/>
        <exampleNumber>901123</exampleNumber>
        <nationalNumberPattern>
          90(?:
            [13-5][15-7]|
            2[125-7]|
            9\d
          )\d\d
        </nationalNumberPattern>
      </premiumRate>
      <voip>
        <possibleLengths national=""6""/>
        <exampleNumber>601234</exampleNumber>
        <nationalNumberPattern>
          (?:
            6[0-36]|
            88
          )\d{4}
        </nationalNumberPattern>
      </voip>
    </territory>"];
  ["

    <!-- France (FR) -->
    <!-- http://www.itu.int/oth/T020200004A/en -->
    <!-- http://www.arcep.fr/index.php?id=8146 -->
    <!-- http://en.wikipedia.org/wiki/%2B33 -->
    <!-- https://extranet.arcep.fr/portail/Op%C3%A9rateursCE/Num%C3%A9rotation.aspx -->
    <!-- Short numbers will be formatted as a block without a national prefix. -->
    <territory id=""FR"" countryCode=""33"" internationalPrefix=""00"" nationalPrefix=""0""
               mobileNumberPortableRegion=""true"">
      <availableFormats>
        <!-- 4-digit shortcodes. -->
        <numberFormat pattern=""(\d{4})"">
          <leadingDigits>10</leadingDigits>
          <format>$1</format>
          <intlFormat>NA</intlFormat>
        </numberFormat>
        <!-- 6-digit shortcodes. -->
        <numberFormat pattern=""(\d{3})(\d{3})"">
          <leadingDigits>1</leadingDigits>
          <format>$1 $2</format>
          <intlFormat>NA</intlFormat>
        </numberFormat>
        <!-- Va";
   "riable cost (toll free, premium rate etc.) -->
        <numberFormat pattern=""(\d{3})(\d{2})(\d{2})(\d{2})"" nationalPrefixFormattingRule=""$NP $FG"">
          <leadingDigits>8</leadingDigits>
          <format>$1 $2 $3 $4</format>
        </numberFormat>
        <!-- General format (fixed, mobile, voip) -->
        <numberFormat pattern=""(\d)(\d{2})(\d{2})(\d{2})(\d{2})""
                      nationalPrefixFormattingRule=""$NP$FG"">
          <leadingDigits>[1-79]</leadingDigits>
          <format>$1 $2 $3 $4 $5</format>
        </numberFormat>
      </availableFormats>
      <generalDesc>
        <nationalNumberPattern>[1-9]\d{8}</nationalNumberPattern>
      </generalDesc>
      <fixedLine>
        <possibleLengths national=""9""/>
        <exampleNumber>123456789</exampleNumber>
        <nationalNumberPattern>
          (?:
            26[013-9]|
            59[1-35-9]
          )\d{6}|
          (?:
            [13]\d|
            2[0-57-9]|
            4[1-9]|
            5[0-8]
          )\d{7}
        </nationalNumberPattern>
";
   "      </fixedLine>
      <!-- 700 numbers are mobile phone services as per https://www.arcep.fr/index.php?id=8146
           where length is mentioned as 'extended length numbers'. As we are not sure, supporting
           it as regular 9 digit range. Sub ranges are assigned to mobile operators as per:
           https://www.arcep.fr/index.php?id=interactivenumeros&no_cache=1 -->
      <mobile>
        <possibleLengths national=""9""/>
        <exampleNumber>612345678</exampleNumber>
        <nationalNumberPattern>
          (?:
            6(?:
              [0-24-8]\d|
              3[0-8]|
              9[589]
            )|
            7[3-9]\d
          )\d{6}
        </nationalNumberPattern>
      </mobile>
      <tollFree>
        <possibleLengths national=""9""/>
        <exampleNumber>801234567</exampleNumber>
        <nationalNumberPattern>80[0-5]\d{6}</nationalNumberPattern>
      </tollFree>
      <premiumRate>
        <possibleLengths national=""9""/>
        <exampleNumber>891123456</exampleNumber>
        <nationalNumberPattern>
          836(?:
            0[0-36-9]|
            [1-9]\d
          )\d{4}|
          8(?:
            1[2-9]|
            2[2-47-9]|
            3[0-57-9]|
            [569]\d|
            8[0-35-9]
          )\d{6}
        </nationalNumberPattern>
      </premiumRate>
      <sharedCost>
        <possibleLengths national=""9""/>
        <exampleNumber>884012345</exampleNumber>
        <nationalNumberPattern>
          8(?:
            1[01]|
            2[0156]|
            4[024]|
            84
          )\d{6}
        </nationalNumberPattern>
      </sharedCost>
      <!-- 087 numbers used to be used for this. -->
      <voip>
        <possibleLengths national=""9""/>
        <exampleNumber>912345678</exampleNumber>
        <nationalNumberPattern>9\d{8}</nationalNumberPattern>
      </voip>
      <!-- 80[6-9] numbers cost the same as fixed-line calls, but are not geographically assigned,
           so we classify them as UAN. -->
      <uan>
";
   "        <possibleLengths national=""9""/>
        <exampleNumber>806123456</exampleNumber>
        <nationalNumberPattern>80[6-9]\d{6}</nationalNumberPattern>
      </uan>
    </territory>"];
  ["

    <!-- Gabon (GA) -->
    <!-- Note: We cannot se";
   "t nationalPrefix=""0"" while fixed line numbers can start with a zero
         as this breaks parsing (it treats all leading zeros as national prefixes. -->
    <!-- http://www.itu.int/oth/T020200004E/en -->
    <!-- http://www.arcep.ga -->
    <territory id=""GA"" countryCode=""241"" internationalPrefix=""00""
               nationalPrefixForParsing=""0(11\d{6}|60\d{6}|61\d{6}|6[256]\d{6}|7[467]\d{6})""
               nationalPrefixTransformRule=""$1"">
      <availableFormats>
        <!-- If no leading zero was supplied, format with the national prefix. -->
        <numberFormat pattern=""(\d)(\d{2})(\d{2})(\d{2})"" nationalPrefixFormattingRule=""0$FG"">
          <leadingDigits>[2-7]</leadingDigits>
          <format>$1 $2 $3 $4</format>
        </numberFormat>
        <!-- This already has a leading zero so we format is ""as is"". -->
        <numberFormat pattern=""(\d{2})(\d{2})(\d{2})(\d{2})"">
          <leadingDigits>0</leadingDigits>
          <format>$1 $2 $3 $4</format>
        </numberFormat>
        <!-- Even in new way of dialling, 0 is mandatory when dialling domestically. -->
        <numberFormat pattern=""(\d{2})(\d{2})(\d{2})(\d{2})"" nationalPrefixFormattingRule=""0$FG"">
          <leadingDigits>
            11|
            [67]
          </leadingDigits>
          <format>$1 $2 $3 $4</format>
        </numberFormat>
      </availableFormats>
      <generalDesc>
        <nationalNumberPattern>
          (?:
            [067]\d|
            11
          )\d{6}|
          [2-7]\d{6}
        </nationalNumberPattern>
      </generalDesc>
      <!-- Gabon has undergone renumbering in November 2019 where the prefix 01 is changed to 011;
           and initial ""0"" is no more needed when dialled internationally. Thus they become 7 digit
           to 8 digit excluding 0. -->
      <!-- About numbers in older version, which may soon get invalid:
           A 7-digit fixed-line plan was scheduled to be implemented on June 17, 2012 to unify fixed
";
   "           line and mobile numbering. However, this has only partially happened; mobile numbers can
           now be dialed without a leading zero, but fixed line numbers still re";
   "quire it. Their own
           website still lists fixed line numbers as ""+241 01 44 68 11"" and upon ringing they will
           not connect fr";
   "om outside the country without the 0. This was last tested March 2014. -->
      <fixedLine>
        <possibleLengths national=""8""/>
        <exampleNumber>01441234</exampleNumber>
        <nationalNumberPattern>[01]1\d{6}</nationalNumberPattern>
      </fixedLine>
      <!-- Gabon has undergone renumbering in November 2019 where the prefixes 0[256] are changed
           to 6[256] respectively and similarly 0[47] changed to 7[47]. The initial ""0"" is no more
           needed when dialled internationally. Thus they become 7 digit to 8 digit excluding 0. -->
      <!-- About old numbers, which may soon get invalid: Mobile numbers can be 7 or 8 digits
           (with or without a leading zero). -->
      <!-- Prefix 7658 is added based on user report. -->
      <mobile>
        <possibleLengths national=""7,8""/>
        <exampleNumber>06031234</exampleNumber>
        <nationalNumberPattern>
          (?:
            (?:
              0[2-7]|
              7[467]
            )\d|
            6(?:
              0[0-4]|
              10|
              [256]\d
            )
          )\d{5}|
          [2-7]\d{6}
        </nationalNumberPattern>
      </mobile>
    </territory>"]].
