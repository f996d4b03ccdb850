(** Message formats, copied by tools/gen_messages.py from src/ngircd/messages.h. *)
From Coq Require Import String.
Local Open Scope string_scope.

Definition RPL_WELCOME_MSG : string := "001 %s :Welcome to the Internet Relay Network %s".  (* messages.h:20 *)
Definition RPL_YOURHOST_MSG : string := "002 %s :Your host is %s, running version ngircd-%s (%s/%s/%s)".  (* messages.h:21 *)
Definition RPL_CREATED_MSG : string := "003 %s :This server has been started %s".  (* messages.h:22 *)
Definition RPL_MYINFO_MSG : string := "004 %s %s ngircd-%s %s %s".  (* messages.h:23 *)
Definition RPL_ISUPPORTNET_MSG : string := "005 %s NETWORK=%s :is my network name".  (* messages.h:24 *)
Definition RPL_ISUPPORT1_MSG : string := "005 %s RFC2812 IRCD=ngIRCd CHARSET=UTF-8 CASEMAPPING=ascii PREFIX=(qaohv)~&@%%+ CHANTYPES=%s CHANMODES=beI,k,l,imMnOPQRstVz CHANLIMIT=%s:%d :are supported on this server".  (* messages.h:25 *)
Definition RPL_ISUPPORT2_MSG : string := "005 %s CHANNELLEN=%d NICKLEN=%d TOPICLEN=%d AWAYLEN=%d KICKLEN=%d MODES=%d MAXLIST=beI:%d EXCEPTS=e INVEX=I PENALTY FNC :are supported on this server".  (* messages.h:26 *)
Definition RPL_TRACELINK_MSG : string := "200 %s Link %s-%s %s %s V%s %ld %d %d".  (* messages.h:28 *)
Definition RPL_TRACEOPERATOR_MSG : string := "204 %s Oper 2 :%s".  (* messages.h:29 *)
Definition RPL_TRACESERVER_MSG : string := "206 %s Serv 1 0S 0C %s[%s@%s] *!*@%s :V%s".  (* messages.h:30 *)
Definition RPL_STATSLINKINFO_MSG : string := "211 %s %s %d %ld %ld %ld %ld :%ld".  (* messages.h:31 *)
Definition RPL_STATSCOMMANDS_MSG : string := "212 %s %s %ld %ld %ld".  (* messages.h:32 *)
Definition RPL_STATSXLINE_MSG : string := "216 %s %c %s %ld :%s".  (* messages.h:33 *)
Definition RPL_ENDOFSTATS_MSG : string := "219 %s %c :End of STATS report".  (* messages.h:34 *)
Definition RPL_UMODEIS_MSG : string := "221 %s +%s".  (* messages.h:35 *)
Definition RPL_SERVLIST_MSG : string := "234 %s %s %s %s %d %d :%s".  (* messages.h:36 *)
Definition RPL_SERVLISTEND_MSG : string := "235 %s %s %s :End of service listing".  (* messages.h:37 *)
Definition RPL_STATSUPTIME : string := "242 %s :Server Up %u days %u:%02u:%02u".  (* messages.h:38 *)
Definition RPL_LUSERCLIENT_MSG : string := "251 %s :There are %ld users and %ld services on %ld servers".  (* messages.h:39 *)
Definition RPL_LUSEROP_MSG : string := "252 %s %lu :operator(s) online".  (* messages.h:40 *)
Definition RPL_LUSERUNKNOWN_MSG : string := "253 %s %lu :unknown connection(s)".  (* messages.h:41 *)
Definition RPL_LUSERCHANNELS_MSG : string := "254 %s %lu :channels formed".  (* messages.h:42 *)
Definition RPL_LUSERME_MSG : string := "255 %s :I have %lu users, %lu services and %lu servers".  (* messages.h:43 *)
Definition RPL_ADMINME_MSG : string := "256 %s %s :Administrative info".  (* messages.h:44 *)
Definition RPL_ADMINLOC1_MSG : string := "257 %s :%s".  (* messages.h:45 *)
Definition RPL_ADMINLOC2_MSG : string := "258 %s :%s".  (* messages.h:46 *)
Definition RPL_ADMINEMAIL_MSG : string := "259 %s :%s".  (* messages.h:47 *)
Definition RPL_TRACEEND_MSG : string := "262 %s %s %s-%s.%s :End of TRACE".  (* messages.h:48 *)
Definition RPL_LOCALUSERS_MSG : string := "265 %s %lu %lu :Current local users: %lu, Max: %lu".  (* messages.h:49 *)
Definition RPL_NETUSERS_MSG : string := "266 %s %lu %lu :Current global users: %lu, Max: %lu".  (* messages.h:50 *)
Definition RPL_STATSCONN_MSG : string := "250 %s :Highest connection count: %lu (%lu connections received)".  (* messages.h:51 *)
Definition RPL_WHOISSSL_MSG : string := "275 %s %s :is connected via SSL (secure link)".  (* messages.h:52 *)
Definition RPL_WHOISCERTFP_MSG : string := "276 %s %s :has client certificate fingerprint %s".  (* messages.h:53 *)
Definition RPL_AWAY_MSG : string := "301 %s %s :%s".  (* messages.h:55 *)
Definition RPL_USERHOST_MSG : string := "302 %s :".  (* messages.h:56 *)
Definition RPL_ISON_MSG : string := "303 %s :".  (* messages.h:57 *)
Definition RPL_UNAWAY_MSG : string := "305 %s :You are no longer marked as being away".  (* messages.h:58 *)
Definition RPL_NOWAWAY_MSG : string := "306 %s :You have been marked as being away".  (* messages.h:59 *)
Definition RPL_WHOISREGNICK_MSG : string := "307 %s %s :is a registered nick".  (* messages.h:60 *)
Definition RPL_WHOISSERVICE_MSG : string := "310 %s %s :is an IRC service".  (* messages.h:61 *)
Definition RPL_WHOISUSER_MSG : string := "311 %s %s %s %s * :%s".  (* messages.h:62 *)
Definition RPL_WHOISSERVER_MSG : string := "312 %s %s %s :%s".  (* messages.h:63 *)
Definition RPL_WHOISOPERATOR_MSG : string := "313 %s %s :is an IRC operator".  (* messages.h:64 *)
Definition RPL_WHOWASUSER_MSG : string := "314 %s %s %s %s * :%s".  (* messages.h:65 *)
Definition RPL_ENDOFWHO_MSG : string := "315 %s %s :End of WHO list".  (* messages.h:66 *)
Definition RPL_WHOISIDLE_MSG : string := "317 %s %s %lu %lu :seconds idle, signon time".  (* messages.h:67 *)
Definition RPL_ENDOFWHOIS_MSG : string := "318 %s %s :End of WHOIS list".  (* messages.h:68 *)
Definition RPL_WHOISCHANNELS_MSG : string := "319 %s %s :".  (* messages.h:69 *)
Definition RPL_LISTSTART_MSG : string := "321 %s Channel :Users  Name".  (* messages.h:70 *)
Definition RPL_LIST_MSG : string := "322 %s %s %ld :%s".  (* messages.h:71 *)
Definition RPL_LISTEND_MSG : string := "323 %s :End of LIST".  (* messages.h:72 *)
Definition RPL_CHANNELMODEIS_MSG : string := "324 %s %s +%s".  (* messages.h:73 *)
Definition RPL_CREATIONTIME_MSG : string := "329 %s %s %ld".  (* messages.h:74 *)
Definition RPL_WHOISLOGGEDIN_MSG : string := "330 %s %s %s :is logged in as".  (* messages.h:75 *)
Definition RPL_NOTOPIC_MSG : string := "331 %s %s :No topic is set".  (* messages.h:76 *)
Definition RPL_TOPIC_MSG : string := "332 %s %s :%s".  (* messages.h:77 *)
Definition RPL_TOPICSETBY_MSG : string := "333 %s %s %s %u".  (* messages.h:78 *)
Definition RPL_WHOISBOT_MSG : string := "335 %s %s :is an IRC Bot".  (* messages.h:79 *)
Definition RPL_INVITING_MSG : string := "341 %s %s %s%s".  (* messages.h:80 *)
Definition RPL_INVITELIST_MSG : string := "346 %s %s %s %s %d".  (* messages.h:81 *)
Definition RPL_ENDOFINVITELIST_MSG : string := "347 %s %s :End of channel invite list".  (* messages.h:82 *)
Definition RPL_EXCEPTLIST_MSG : string := "348 %s %s %s %s %d".  (* messages.h:83 *)
Definition RPL_ENDOFEXCEPTLIST_MSG : string := "349 %s %s :End of channel exception list".  (* messages.h:84 *)
Definition RPL_VERSION_MSG : string := "351 %s %s-%s.%s %s :%s".  (* messages.h:85 *)
Definition RPL_WHOREPLY_MSG : string := "352 %s %s %s %s %s %s %s :%d %s".  (* messages.h:86 *)
Definition RPL_NAMREPLY_MSG : string := "353 %s %c %s :".  (* messages.h:87 *)
Definition RPL_LINKS_MSG : string := "364 %s %s %s :%d %s".  (* messages.h:88 *)
Definition RPL_ENDOFLINKS_MSG : string := "365 %s %s :End of LINKS list".  (* messages.h:89 *)
Definition RPL_ENDOFNAMES_MSG : string := "366 %s %s :End of NAMES list".  (* messages.h:90 *)
Definition RPL_BANLIST_MSG : string := "367 %s %s %s %s %d".  (* messages.h:91 *)
Definition RPL_ENDOFBANLIST_MSG : string := "368 %s %s :End of channel ban list".  (* messages.h:92 *)
Definition RPL_ENDOFWHOWAS_MSG : string := "369 %s %s :End of WHOWAS list".  (* messages.h:93 *)
Definition RPL_INFO_MSG : string := "371 %s :%s".  (* messages.h:94 *)
Definition RPL_ENDOFINFO_MSG : string := "374 %s :End of INFO list".  (* messages.h:95 *)
Definition RPL_MOTD_MSG : string := "372 %s :- %s".  (* messages.h:96 *)
Definition RPL_MOTDSTART_MSG : string := "375 %s :- %s message of the day".  (* messages.h:97 *)
Definition RPL_ENDOFMOTD_MSG : string := "376 %s :End of MOTD command".  (* messages.h:98 *)
Definition RPL_WHOISHOST_MSG : string := "378 %s %s :is connecting from *@%s %s".  (* messages.h:99 *)
Definition RPL_WHOISMODES_MSG : string := "379 %s %s :is using modes +%s".  (* messages.h:100 *)
Definition RPL_YOUREOPER_MSG : string := "381 %s :You are now an IRC Operator".  (* messages.h:101 *)
Definition RPL_REHASHING_MSG : string := "382 %s :Rehashing".  (* messages.h:102 *)
Definition RPL_YOURESERVICE_MSG : string := "383 %s :You are service %s".  (* messages.h:103 *)
Definition RPL_TIME_MSG : string := "391 %s %s :%s".  (* messages.h:104 *)
Definition RPL_HOSTHIDDEN_MSG : string := "396 %s %s :is your displayed hostname now".  (* messages.h:105 *)
Definition ERR_NOSUCHNICK_MSG : string := "401 %s %s :No such nick or channel name".  (* messages.h:107 *)
Definition ERR_NOSUCHSERVER_MSG : string := "402 %s %s :No such server".  (* messages.h:108 *)
Definition ERR_NOSUCHCHANNEL_MSG : string := "403 %s %s :No such channel".  (* messages.h:109 *)
Definition ERR_CANNOTSENDTOCHAN_MSG : string := "404 %s %s :Cannot send to channel".  (* messages.h:110 *)
Definition ERR_TOOMANYCHANNELS_MSG : string := "405 %s %s :You have joined too many channels".  (* messages.h:111 *)
Definition ERR_WASNOSUCHNICK_MSG : string := "406 %s %s :There was no such nickname".  (* messages.h:112 *)
Definition ERR_TOOMANYTARGETS_MSG : string := "407 %s :Too many recipients".  (* messages.h:113 *)
Definition ERR_NOORIGIN_MSG : string := "409 %s :No origin specified".  (* messages.h:114 *)
Definition ERR_INVALIDCAP_MSG : string := "410 %s %s :Invalid CAP subcommand".  (* messages.h:115 *)
Definition ERR_NORECIPIENT_MSG : string := "411 %s :No recipient given (%s)".  (* messages.h:116 *)
Definition ERR_NOTEXTTOSEND_MSG : string := "412 %s :No text to send".  (* messages.h:117 *)
Definition ERR_WILDTOPLEVEL_MSG : string := "414 %s :Wildcard in toplevel domain".  (* messages.h:118 *)
Definition ERR_UNKNOWNCOMMAND_MSG : string := "421 %s %s :Unknown command".  (* messages.h:119 *)
Definition ERR_NOMOTD_MSG : string := "422 %s :MOTD file is missing".  (* messages.h:120 *)
Definition ERR_NONICKNAMEGIVEN_MSG : string := "431 %s :No nickname given".  (* messages.h:121 *)
Definition ERR_ERRONEUSNICKNAME_MSG : string := "432 %s %s :Erroneous nickname".  (* messages.h:122 *)
Definition ERR_NICKNAMETOOLONG_MSG : string := "432 %s %s :Nickname too long, max. %u characters".  (* messages.h:123 *)
Definition ERR_FORBIDDENNICKNAME_MSG : string := "432 %s %s :Nickname is forbidden/blocked".  (* messages.h:124 *)
Definition ERR_NICKNAMEINUSE_MSG : string := "433 %s %s :Nickname already in use".  (* messages.h:125 *)
Definition ERR_USERNOTINCHANNEL_MSG : string := "441 %s %s %s :They aren't on that channel".  (* messages.h:126 *)
Definition ERR_NOTONCHANNEL_MSG : string := "442 %s %s :You are not on that channel".  (* messages.h:127 *)
Definition ERR_USERONCHANNEL_MSG : string := "443 %s %s %s :is already on channel".  (* messages.h:128 *)
Definition ERR_SUMMONDISABLED_MSG : string := "445 %s :SUMMON has been disabled".  (* messages.h:129 *)
Definition ERR_USERSDISABLED_MSG : string := "446 %s :USERS has been disabled".  (* messages.h:130 *)
Definition ERR_NONICKCHANGE_MSG : string := "447 %s :Cannot change nickname while on %s(+N)".  (* messages.h:131 *)
Definition ERR_NOTREGISTERED_MSG : string := "451 %s :Connection not registered".  (* messages.h:132 *)
Definition ERR_NOTREGISTEREDSERVER_MSG : string := "451 %s :Connection not registered as server link".  (* messages.h:133 *)
Definition ERR_NEEDMOREPARAMS_MSG : string := "461 %s %s :Syntax error".  (* messages.h:134 *)
Definition ERR_ALREADYREGISTRED_MSG : string := "462 %s :Connection already registered".  (* messages.h:135 *)
Definition ERR_PASSWDMISMATCH_MSG : string := "464 %s :Invalid password".  (* messages.h:136 *)
Definition ERR_CHANNELISFULL_MSG : string := "471 %s %s :Cannot join channel (+l) -- Channel is full, try later".  (* messages.h:137 *)
Definition ERR_SECURECHANNEL_MSG : string := "471 %s %s :Cannot join channel (+z) -- SSL connections only".  (* messages.h:138 *)
Definition ERR_OPONLYCHANNEL_MSG : string := "471 %s %s :Cannot join channel (+O) -- IRC opers only".  (* messages.h:139 *)
Definition ERR_REGONLYCHANNEL_MSG : string := "471 %s %s :Cannot join channel (+R) -- Registered users only".  (* messages.h:140 *)
Definition ERR_UNKNOWNMODE_MSG : string := "472 %s %c :is unknown mode char for %s".  (* messages.h:141 *)
Definition ERR_INVITEONLYCHAN_MSG : string := "473 %s %s :Cannot join channel (+i) -- Invited users only".  (* messages.h:142 *)
Definition ERR_BANNEDFROMCHAN_MSG : string := "474 %s %s :Cannot join channel (+b) -- You are banned".  (* messages.h:143 *)
Definition ERR_BADCHANNELKEY_MSG : string := "475 %s %s :Cannot join channel (+k) -- Wrong channel key".  (* messages.h:144 *)
Definition ERR_NOCHANMODES_MSG : string := "477 %s %s :Channel doesn't support modes".  (* messages.h:145 *)
Definition ERR_NEEDREGGEDNICK_MSG : string := "477 %s %s :Cannot send to channel (+M) -- You need to be identified to a registered account to message this channel".  (* messages.h:146 *)
Definition ERR_LISTFULL_MSG : string := "478 %s %s %s :Channel list is full (%d)".  (* messages.h:147 *)
Definition ERR_NOPRIVILEGES_MSG : string := "481 %s :Permission denied".  (* messages.h:148 *)
Definition ERR_CHANOPRIVSNEEDED_MSG : string := "482 %s %s :You are not channel operator".  (* messages.h:149 *)
Definition ERR_CHANOPPRIVTOOLOW_MSG : string := "482 %s %s :Your privileges are too low".  (* messages.h:150 *)
Definition ERR_KICKDENY_MSG : string := "482 %s %s :Cannot kick, %s is protected".  (* messages.h:151 *)
Definition ERR_CANTKILLSERVER_MSG : string := "483 %s :You can't kill a server!".  (* messages.h:152 *)
Definition ERR_RESTRICTED_MSG : string := "484 %s :Your connection is restricted".  (* messages.h:153 *)
Definition ERR_NICKREGISTER_MSG : string := "484 %s :Cannot modify user mode (+R) -- Use IRC services".  (* messages.h:154 *)
Definition ERR_NONONREG_MSG : string := "486 %s :Cannot send to user (+b) -- You must identify to a registered nick to private message %s".  (* messages.h:155 *)
Definition ERR_NOOPERHOST_MSG : string := "491 %s :Not configured for your host".  (* messages.h:156 *)
Definition ERR_NOTONSAMECHANNEL_MSG : string := "493 %s :You must share a common channel with %s".  (* messages.h:157 *)
Definition ERR_UMODEUNKNOWNFLAG_MSG : string := "501 %s :Unknown mode".  (* messages.h:159 *)
Definition ERR_UMODEUNKNOWNFLAG2_MSG : string := "501 %s :Unknown mode ""%c%c""".  (* messages.h:160 *)
Definition ERR_USERSDONTMATCH_MSG : string := "502 %s :Can't set/get mode for other users".  (* messages.h:161 *)
Definition ERR_USERNOTONSERV_MSG : string := "504 %s %s :User is not on this server".  (* messages.h:162 *)
Definition ERR_NOINVITE_MSG : string := "518 %s :Cannot invite to %s (+V)".  (* messages.h:163 *)
Definition ERR_INVALIDMODEPARAM_MSG : string := "696 %s %s %c * :Invalid mode parameter".  (* messages.h:165 *)
