-Q theories Verif
theories/Base.v
theories/BaseProofs.v
theories/SessionKey.v
theories/SplitProofs.v
theories/SessionKeyProofs.v
theories/PropsSessionKey.v
theories/Types.v
theories/Token.v
theories/Grant.v
theories/GrantSpec.v
theories/GrantProofs.v
theories/GrantDeep.v
theories/PropsGrant.v
theories/Monad.v
theories/Database.v
theories/DatabaseSpec.v
theories/DatabaseProofs.v
theories/PropsDatabase.v
theories/Manager.v
theories/ManagerSpec.v
theories/ManagerProofs.v
theories/PropsManager.v
theories/PyInt.v
theories/PyIntProofs.v
theories/LV.v
theories/LVProofs.v
theories/Toy.v
theories/TokenHandler.v
theories/TokenHandlerSpec.v
theories/TokenHandlerProofs.v
theories/PropsToken.v
theories/Cookie.v
theories/CookieSpec.v
theories/CookieProofs.v
theories/PropsCookie.v
theories/Ctx.v
theories/Scopes.v
theories/Claims.v
theories/ScopesSpec.v
theories/ScopesProofs.v
theories/MonadProofs.v
theories/ClaimsSpec.v
theories/ClaimsProofs.v
theories/Authz.v
theories/UserInfo.v
theories/UserInfoSpec.v
theories/UserInfoProofs.v
theories/AuthzSpec.v
theories/AuthzProofs.v
theories/PropsClaims.v
theories/PropsIntrospection.v
theories/World.v
theories/Minting.v
theories/TokenEndpoint.v
theories/WorldSpec.v
theories/WorldProofs.v
theories/Threads.v
theories/ResponseSpec.v
theories/ResponseProofs.v
theories/PropsTokenEndpoint.v
theories/ClientAuthn.v
theories/ClientAuthnSpec.v
theories/ClientAuthnProofs.v
theories/PropsClientAuthn.v
theories/Uri.v
theories/PyUrl.v
theories/UriSpec.v
theories/UriProofs.v
theories/PropsUri.v
theories/Registration.v
theories/RegistrationSpec.v
theories/RegistrationProofs.v
theories/PropsRegistration.v
theories/AuthnBroker.v
theories/AuthnBrokerSpec.v
theories/AuthnBrokerProofs.v
theories/PropsBroker.v
theories/FormPost.v
theories/FormPostSpec.v
theories/FormPostProofs.v
theories/PropsFormPost.v
theories/Response.v
theories/ResponseHeadSpec.v
theories/ResponseHeadProofs.v
theories/PropsResponse.v
theories/AuthzRequest.v
theories/AuthzRequestSpec.v
theories/AuthzRequestProofs.v
theories/PropsAuthzRequest.v
theories/AuthzEndpoint.v
theories/AuthzEndpointSpec.v
theories/AuthzEndpointProofs.v
theories/PropsAuthzEndpoint.v
theories/IDToken.v
theories/IDTokenSpec.v
theories/IDTokenProofs.v
theories/PropsIDToken.v
theories/SetupAuth.v
theories/SetupAuthSpec.v
theories/SetupAuthProofs.v
theories/PropsSetupAuth.v
theories/Logout.v
theories/LogoutSpec.v
theories/LogoutProofs.v
theories/PropsLogout.v
theories/Storage.v
theories/StorageSpec.v
theories/StorageProofs.v
theories/PropsStorage.v
theories/Provider.v
theories/ProviderSpec.v
theories/ProviderProofs.v
theories/PropsProvider.v
theories/Stores.v
theories/StoresSpec.v
theories/PropsStores.v
theories/System.v
theories/SystemSpec.v
theories/Preserve.v
theories/SystemProofs.v
theories/PropsSystem.v
theories/TokenSetup.v
theories/TokenSetupSpec.v
theories/PropsTokenSetup.v
theories/FlowSpec.v
theories/FlowProofs.v
theories/FlowAuthzProofs.v
theories/PropsFlow.v
theories/IsolationSpec.v
theories/IsolationProofs.v
theories/PropsIsolation.v
theories/DefaultAuthzSpec.v
theories/DefaultAuthzProofs.v
theories/PropsDefaultAuthz.v
theories/LastingSpec.v
theories/LastingProofs.v
theories/PropsLasting.v
theories/UserinfoFront.v
theories/UserinfoFrontSpec.v
theories/UserinfoFrontProofs.v
theories/PropsUserinfoFront.v
theories/Fronts.v
theories/FrontsSpec.v
theories/FrontsProofs.v
theories/PropsFronts.v
theories/RefreshSpec.v
theories/RefreshProofs.v
theories/PropsRefresh.v
theories/Login.v
theories/LoginSpec.v
theories/LoginProofs.v
theories/PropsLogin.v
theories/Prog.v
theories/ProgProofs.v
theories/CrashSpec.v
theories/CrashProofs.v
theories/PropsCrash.v
theories/SchedSpec.v
theories/SchedProofs.v
theories/SchedRead.v
theories/SchedLost.v
theories/PropsSchedule.v
theories/Services.v
theories/ServicesSpec.v
theories/ServicesProofs.v
theories/PropsServices.v
theories/PropsHints.v
theories/HybridSpec.v
theories/HybridProofs.v
theories/PropsHybrid.v
theories/RequestObject.v
theories/RequestObjectSpec.v
theories/PropsRequestObject.v
theories/AuthzFront.v
theories/FrontFlowSpec.v
theories/PropsFrontFlow.v
theories/NewClientSpec.v
theories/NewClientProofs.v
theories/PropsNewClient.v
theories/Door.v
theories/DoorSpec.v
theories/DoorProofs.v
theories/DoorRequestProofs.v
theories/PropsDoor.v
theories/DoorLastingSpec.v
theories/DoorLastingProofs.v
theories/PropsDoorLasting.v
theories/PropsCustomScopes.v
theories/LookupSpec.v
theories/PropsLookup.v
theories/PropsPayload.v
theories/RefusalSpec.v
theories/PropsRefusal.v
theories/DoorIsolationSpec.v
theories/PropsDoorIsolation.v
theories/PropsDoorFlow.v
theories/DoorRefreshSpec.v
theories/PropsDoorRefresh.v
theories/Sso.v
theories/SsoSpec.v
theories/PropsSso.v
theories/RecordsSpec.v
theories/RecordsProofs.v
theories/PropsRecords.v
theories/ChoicesSpec.v
theories/PropsChoices.v
theories/UsageLookup.v
theories/UsageLookupSpec.v
theories/PropsUsageLookup.v
theories/RecordsFlowSpec.v
theories/PropsRecordsFlow.v
theories/ParsedSpec.v
theories/PropsParsed.v
theories/PropsThief.v
theories/PropsPkceReceived.v
theories/PropsPushed.v
theories/RedirectedSpec.v
theories/PropsRedirected.v
theories/PropsReturnReceived.v
theories/ScopesAskedSpec.v
theories/PropsScopesAsked.v
theories/RegisteredUrisSpec.v
theories/PropsRegisteredUris.v
theories/PropsMethods.v
theories/PropsRequests.v
theories/PropsLoginReceived.v
theories/PropsLogoutRegistered.v
theories/PropsSigningRegistered.v
theories/PropsRequestUriRegistered.v
theories/PropsSelfRegistered.v
